From Verif Require Import Base ListModel ListSpec ListProofs DecModel DecSpec.

Section P.
Variables start size : Z.
Variable csize : Z -> Z.
Variable pos : list dec -> dec -> nat.
Hypothesis Sane : sane start size csize.
(** 0: windows as the code accepts them; 1: windows that really fit on the chip *)
Variable slack : Z.
Hypothesis Slack : 0 <= slack.

Notation slot := (slot csize).
Notation in_space := (in_space start size).
Notation undecode_range := (undecode_range start size).
Notation decode_loop := (decode_loop start size csize).
Notation ua_loop := (ua_loop start size pos).
Notation activate := (activate start size csize pos).

Lemma in_space_iff a : 0 <= a < 4294967296 -> in_space a = true <-> start <= a < start + size.
Proof.
  destruct Sane as (H1 & H2 & H3 & _). intros Ha. unfold DecModel.in_space, u32.
  destruct (Z_lt_le_dec a start).
  - destruct (a <? start) eqn:E; [|lia]. rewrite orb_true_r. simpl. split; [discriminate|lia].
  - destruct (a <? start) eqn:E; [lia|]. rewrite orb_false_r.
    rewrite (Z.mod_small (a - start)) by lia. split; intros; [lia|].
    destruct (size <=? a - start) eqn:E2; [lia|reflexivity].
Qed.

Lemma undecode_loop_spec n : forall b m a, start <= b -> b + Z.of_nat n <= start + size ->
  undecode_loop start size n b m a = if (b <=? a) && (a <? b + Z.of_nat n) then None else m a.
Proof.
  destruct Sane as (H1 & H2 & H3 & _).
  induction n as [|n IH]; intros b m a Hb He.
  - simpl. destruct ((b <=? a) && (a <? b + 0)) eqn:E; [lia|reflexivity].
  - cbn [undecode_loop]. rewrite IH by lia.
    unfold undecode_cell. assert (Hi : in_space b = true) by (apply in_space_iff; lia).
    rewrite Hi. unfold set_map.
    destruct ((b + 1 <=? a) && (a <? b + 1 + Z.of_nat n)) eqn:E1;
    destruct ((b <=? a) && (a <? b + Z.of_nat (S n))) eqn:E2; try lia; auto;
    destruct (a =? b) eqn:E3; auto; lia.
Qed.

Lemma undecode_range_spec b e m a : start <= b -> e < start + size ->
  undecode_range b e m a = if (b <=? a) && (a <=? e) then None else m a.
Proof.
  intros Hb He. unfold DecModel.undecode_range.
  destruct (Z_lt_le_dec e b) as [Hl|Hl].
  - replace (Z.to_nat (e - b + 1)) with O by lia. simpl.
    destruct ((b <=? a) && (a <=? e)) eqn:E; [lia|reflexivity].
  - rewrite undecode_loop_spec by lia.
    destruct ((b <=? a) && (a <? b + Z.of_nat (Z.to_nat (e - b + 1)))) eqn:E1;
    destruct ((b <=? a) && (a <=? e)) eqn:E2; try lia; auto.
Qed.

Lemma decode_loop_spec n : forall b c ch m a, start <= b -> b + Z.of_nat n <= start + size ->
  decode_loop n b c ch m a =
  if (b <=? a) && (a <? b + Z.of_nat n) then slot ch (c + (a - b)) else m a.
Proof.
  destruct Sane as (H1 & H2 & H3 & _).
  induction n as [|n IH]; intros b c ch m a Hb He.
  - simpl. destruct ((b <=? a) && (a <? b + 0)) eqn:E; [lia|reflexivity].
  - cbn [DecModel.decode_loop]. rewrite IH by lia.
    unfold decode_cell. assert (Hi : in_space b = true) by (apply in_space_iff; lia).
    rewrite Hi. unfold set_map.
    destruct ((b + 1 <=? a) && (a <? b + 1 + Z.of_nat n)) eqn:E1;
    destruct ((b <=? a) && (a <? b + Z.of_nat (S n))) eqn:E2; try lia; auto;
    destruct (a =? b) eqn:E3; auto; try lia.
    + f_equal. lia.
    + f_equal. lia.
Qed.

(** ** invariant of the list without the decoder [skip] that is being activated *)
Definition wf (d : dec) : Prop :=
  start <= ab d <= ae d /\ ae d < start + size /\ 0 <= cb d /\ cb d + (ae d - ab d) + slack <= csize (dchip d).

Definition uniq (l : list dec) : Prop := NoDup (List.map did l).

Definition oinv (skip : Z) (m : dmap) (l : list dec) : Prop :=
  (forall d, In d l -> did d <> skip -> wf d) /\
  (forall d1 d2, In d1 l -> In d2 l -> did d1 <> skip -> did d2 <> skip -> did d1 <> did d2 -> disjoint d1 d2) /\
  (forall d a, In d l -> did d <> skip -> covered d a -> m a = slot (dchip d) (cb d + (a - ab d))) /\
  (forall a, (forall d, In d l -> did d <> skip -> ~ covered d a) -> m a = None).

Definition clear_of (d : dec) (b e : Z) : Prop := ae d < b \/ e < ab d.

(** nothing to do: loop over decoders clear of the area *)
Lemma ua_loop_clear act n : forall skip b e i st, b <= e ->
  (forall d, In d (decs st) -> did d <> skip -> clear_of d b e /\ ab d <= ae d) ->
  (length (decs st) <= i + n)%nat ->
  ua_loop act n skip b e i st = Ok st.
Proof.
  induction n as [|n IH]; intros skip b e i st Hbe Hcl Hn; cbn [DecModel.ua_loop].
  - destruct (nth_error (decs st) i) as [d|] eqn:E; [|reflexivity].
    assert (i < length (decs st))%nat by (apply nth_error_Some; congruence). lia.
  - destruct (nth_error (decs st) i) as [d|] eqn:E; [|reflexivity].
    destruct (did d =? skip) eqn:Es.
    + apply IH; auto. lia.
    + destruct (Hcl d) as (Hc & Hw); [eapply nth_error_In; eauto|lia|].
      unfold clear_of in Hc. unfold fully_covered_by, covers, is_in.
      destruct ((b <=? ab d) && (ae d <=? e)) eqn:E1; [lia|].
      destruct ((ab d <=? b) && (e <=? ae d)) eqn:E2; [lia|].
      destruct ((ab d <=? b) && (b <=? ae d) || (ab d <=? e) && (e <=? ae d)) eqn:E3; [lia|].
      apply IH; auto. lia.
Qed.

Lemma in_insert {B} (l : list B) i x y : In y (insert_at _ l i x) <-> y = x \/ In y l.
Proof.
  unfold insert_at. rewrite in_app_iff. simpl.
  rewrite <- (firstn_skipn i l) at 3. rewrite in_app_iff. intuition congruence.
Qed.
Lemma insert_len {B} (l : list B) i x : length (insert_at _ l i x) = S (length l).
Proof.
  unfold insert_at. rewrite app_length. simpl. rewrite firstn_length, skipn_length. lia.
Qed.
Lemma map_insert (l : list dec) i x : List.map did (insert_at _ l i x) = insert_at _ (List.map did l) i (did x).
Proof. unfold insert_at. rewrite map_app. cbn [List.map]. rewrite firstn_map, skipn_map. reflexivity. Qed.
Lemma nodup_insert {B} (l : list B) i x : NoDup l -> ~ In x l -> NoDup (insert_at _ l i x).
Proof.
  intros Hn Hi. unfold insert_at.
  apply NoDup_Add with (a := x) (l := l).
  - pose proof (Add_app x (firstn i l) (skipn i l)) as H. rewrite firstn_skipn in H. exact H.
  - auto.
Qed.
Lemma nodup_remove {B} (l : list B) i : NoDup l -> NoDup (remove_at _ l i).
Proof.
  revert l. induction i as [|i IH]; intros [|h t] Hn; unfold remove_at; simpl; auto.
  - inversion Hn; auto.
  - inversion Hn as [|? ? Hh Ht]; subst. constructor.
    + intros Hin. apply Hh. apply in_app_or in Hin. destruct Hin as [Hin|Hin].
      * rewrite <- (firstn_skipn i t). apply in_or_app; auto.
      * rewrite <- (firstn_skipn (S i) t). apply in_or_app; auto.
    + apply (IH t Ht).
Qed.
Lemma in_remove_at {B} (l : list B) i x : In x (remove_at _ l i) -> In x l.
Proof.
  unfold remove_at. intros Hin. apply in_app_or in Hin. destruct Hin as [Hin|Hin].
  - rewrite <- (firstn_skipn i l). apply in_or_app; auto.
  - rewrite <- (firstn_skipn (S i) l). apply in_or_app; auto.
Qed.
Lemma in_remove_at_other {B} (l : list B) i x d : nth_error l i = Some d -> x <> d -> In x l -> In x (remove_at _ l i).
Proof.
  revert l. induction i as [|i IH]; intros [|h t] Hn Hx Hin; simpl in *; try discriminate.
  - unfold remove_at. simpl. injection Hn as ->. destruct Hin; [congruence|auto].
  - unfold remove_at in *. simpl. destruct Hin; [auto|]. right. apply (IH t); auto.
Qed.
Lemma remove_len {B} (l : list B) i : (i < length l)%nat -> length (remove_at _ l i) = (length l - 1)%nat.
Proof. intros H. unfold remove_at. rewrite app_length, firstn_length, skipn_length. lia. Qed.

Lemma fresh_gt l d : In d l -> did d < fresh l.
Proof. induction l as [|h t IH]; simpl; intros H; [tauto|]. destruct H as [->|H]; [lia|]. specialize (IH H). lia. Qed.

Lemma uniq_nth l i j d1 d2 : uniq l -> nth_error l i = Some d1 -> nth_error l j = Some d2 -> did d1 = did d2 -> i = j.
Proof.
  intros Hu H1 H2 He. unfold uniq in Hu. rewrite NoDup_nth_error in Hu. apply Hu.
  - rewrite map_length. apply nth_error_Some. congruence.
  - rewrite !nth_error_map, H1, H2. simpl. congruence.
Qed.

Lemma uniq_in l d1 d2 : uniq l -> In d1 l -> In d2 l -> did d1 = did d2 -> d1 = d2.
Proof.
  intros Hu H1 H2 He. apply In_nth_error in H1. apply In_nth_error in H2.
  destruct H1 as (i & H1). destruct H2 as (j & H2).
  assert (i = j) by (eapply uniq_nth; eauto). subst. congruence.
Qed.

Lemma in_upd (l : list dec) i d d' x : uniq l -> nth_error l i = Some d -> did d' = did d ->
  In x (upd l i d') <-> x = d' \/ (In x l /\ did x <> did d).
Proof.
  intros Hu Hn Hd. assert (Hi : (i < length l)%nat) by (apply nth_error_Some; congruence).
  split.
  - intros H. apply In_nth_error in H. destruct H as (j & Hj).
    destruct (Nat.eq_dec i j) as [->|Hne].
    + rewrite nth_error_upd_same in Hj by assumption. injection Hj as <-. auto.
    + rewrite nth_error_upd_other in Hj by assumption. right. split; [eapply nth_error_In; eauto|].
      intros He. apply Hne. eapply uniq_nth; eauto.
  - intros [->|(Hin & Hne)].
    + eapply nth_error_In. apply nth_error_upd_same; auto.
    + apply In_nth_error in Hin. destruct Hin as (j & Hj). apply (nth_error_In _ j).
      rewrite nth_error_upd_other; auto. intros ->. congruence.
Qed.

Lemma uniq_upd l i d d' : uniq l -> nth_error l i = Some d -> did d' = did d -> uniq (upd l i d').
Proof.
  unfold uniq. intros Hu Hn Hd.
  replace (List.map did (upd l i d')) with (List.map did l); auto.
  clear Hu. revert l Hn. induction i as [|i IH]; intros [|h t] Hn; simpl in *; try discriminate.
  - injection Hn as ->. congruence.
  - f_equal. apply IH; auto.
Qed.

Lemma uniq_remove l i : uniq l -> uniq (remove_at _ l i).
Proof.
  unfold uniq. intros H. replace (List.map did (remove_at dec l i)) with (remove_at _ (List.map did l) i).
  - apply nodup_remove; auto.
  - unfold remove_at. rewrite map_app, firstn_map, skipn_map. reflexivity.
Qed.

Lemma in_remove_ne l i d x : uniq l -> nth_error l i = Some d -> In x (remove_at _ l i) -> did x <> did d.
Proof.
  intros Hu Hn Hin He. assert (Hx : x = d).
  { eapply uniq_in; eauto; [eapply in_remove_at; eauto|eapply nth_error_In; eauto]. }
  subst x. unfold remove_at in Hin.
  assert (Hnd : NoDup l) by (unfold uniq in Hu; eapply NoDup_map_inv; eauto).
  apply in_app_or in Hin. rewrite NoDup_nth_error in Hnd.
  destruct Hin as [Hin|Hin]; apply In_nth_error in Hin; destruct Hin as (j & Hj).
  - assert (j < length (firstn i l))%nat by (apply nth_error_Some; congruence).
    rewrite firstn_length in H. rewrite nth_firstn in Hj by lia.
    assert (j = i); [|lia]. apply Hnd; [lia|congruence].
  - assert (nth_error l (S i + j) = Some d).
    { rewrite <- Hj. clear. revert l; induction (S i) as [|k IH]; intros [|h t]; simpl; auto; destruct j; auto. }
    assert (S i + j = i)%nat; [|lia]. apply Hnd; [|congruence].
    apply nth_error_Some. congruence.
Qed.

(** activation of a decoder whose window is free *)
Lemma activate_clear st x k :
  wf x -> In x (decs st) ->
  (forall d, In d (decs st) -> did d <> did x -> clear_of d (ab x) (ae x) /\ ab d <= ae d) ->
  (forall a, covered x a -> map st a = None) ->
  exists st', activate (S k) x st = Ok st' /\
    (decs st' = decs st \/ decs st' = set_act (decs st) (did x)) /\
    forall a, map st' a = if (ab x <=? a) && (a <=? ae x) then slot (dchip x) (cb x + (a - ab x)) else map st a.
Proof.
  destruct Sane as (HS1 & HS2 & HS3 & HS4).
  intros Hwf Hin Hcl Hnone. destruct Hwf as (W1 & W2 & W3 & W4).
  cbn [DecModel.activate]. pose proof (HS4 (dchip x)) as Hcs.
  rewrite (u32_id (start + size)) by lia.
  rewrite (u32_id (ae x - ab x)) by lia.
  rewrite (u32_id (csize (dchip x) - cb x)) by lia.
  destruct (ae x <? ab x) eqn:?; [lia|].
  destruct (csize (dchip x) <=? cb x) eqn:Ecb; cbn [orb].
  - (* the chip has no more cells: fails, nothing changes *)
    exists st. split; [reflexivity|]. split; [auto|]. intros a.
    destruct ((ab x <=? a) && (a <=? ae x)) eqn:E; [|reflexivity].
    rewrite Hnone by (unfold covered; lia). unfold DecModel.slot.
    destruct (csize (dchip x) <=? cb x + (a - ab x)) eqn:E2; [reflexivity|lia].
  - destruct (ab x <? start) eqn:?; [lia|]. cbn [orb].
    destruct (start + size <=? ae x) eqn:?; [lia|]. cbn [orb].
    destruct (csize (dchip x) - cb x <? ae x - ab x) eqn:?; [lia|].
    rewrite ua_loop_clear; auto; try lia.
    cbn [rbind]. eexists. split; [reflexivity|]. cbn [decs map]. split; [auto|].
    intros a. rewrite decode_loop_spec by lia.
    destruct ((ab x <=? a) && (a <? ab x + Z.of_nat (Z.to_nat (ae x - ab x + 1)))) eqn:E1;
    destruct ((ab x <=? a) && (a <=? ae x)) eqn:E2; try lia; auto.
Qed.

Lemma set_act_in l i x : In x (set_act l i) -> exists y, In y l /\ did x = did y /\ ab x = ab y /\ ae x = ae y /\ dchip x = dchip y /\ cb x = cb y.
Proof.
  unfold set_act. rewrite in_map_iff. intros (y & Hy & Hin). exists y. split; auto.
  destruct (did y =? i); subst x; simpl; auto 10.
Qed.
Lemma in_set_act l i y : In y l -> exists x, In x (set_act l i) /\ did x = did y /\ ab x = ab y /\ ae x = ae y /\ dchip x = dchip y /\ cb x = cb y.
Proof.
  intros Hin. unfold set_act.
  exists (if did y =? i then mkDec (did y) (ab y) (ae y) (dchip y) (cb y) true else y).
  split; [apply in_map_iff; eauto|]. destruct (did y =? i); simpl; auto 10.
Qed.
Lemma uniq_set_act l i : uniq l -> uniq (set_act l i).
Proof.
  unfold uniq, set_act. rewrite map_map. intros H.
  replace (List.map (fun x => did (if did x =? i then mkDec (did x) (ab x) (ae x) (dchip x) (cb x) true else x)) l) with (List.map did l); auto.
  apply map_ext. intros d. destruct (did d =? i); reflexivity.
Qed.
Lemma set_act_len l i : length (set_act l i) = length l.
Proof. apply map_length. Qed.
Lemma nth_set_act l i j : nth_error (set_act l i) j =
  option_map (fun d => if did d =? i then mkDec (did d) (ab d) (ae d) (dchip d) (cb d) true else d) (nth_error l j).
Proof. apply nth_error_map. Qed.

Lemma wf_eq x y : did x = did y -> ab x = ab y -> ae x = ae y -> dchip x = dchip y -> cb x = cb y -> wf y -> wf x.
Proof. unfold wf. intros ? -> -> -> ->. auto. Qed.

Lemma oinv_set_act skip m l i : oinv skip m l -> oinv skip m (set_act l i).
Proof.
  intros (O1 & O2 & O3 & O4). repeat split.
  - apply set_act_in in H. destruct H as (y & Hy & E1 & E2 & E3 & E4 & E5).
    pose proof (O1 y Hy ltac:(congruence)) as (W1 & W2). rewrite E2. lia.
  - apply set_act_in in H. destruct H as (y & Hy & E1 & E2 & E3 & E4 & E5).
    pose proof (O1 y Hy ltac:(congruence)) as (W1 & W2). rewrite E2, E3. lia.
  - apply set_act_in in H. destruct H as (y & Hy & E1 & E2 & E3 & E4 & E5).
    pose proof (O1 y Hy ltac:(congruence)) as (W1 & W2). rewrite E3. lia.
  - apply set_act_in in H. destruct H as (y & Hy & E1 & E2 & E3 & E4 & E5).
    pose proof (O1 y Hy ltac:(congruence)) as (W1 & W2 & W3 & W4). rewrite E5. lia.
  - apply set_act_in in H. destruct H as (y & Hy & E1 & E2 & E3 & E4 & E5).
    pose proof (O1 y Hy ltac:(congruence)) as (W1 & W2 & W3 & W4). rewrite E2, E3, E4, E5. lia.
  - intros d1 d2 H1 H2 N1 N2 N3.
    apply set_act_in in H1. destruct H1 as (y & Hy & E1 & E2 & E3 & E4 & E5).
    apply set_act_in in H2. destruct H2 as (z & Hz & F1 & F2 & F3 & F4 & F5).
    pose proof (O2 y z Hy Hz ltac:(congruence) ltac:(congruence) ltac:(congruence)) as D.
    unfold disjoint in *. rewrite E2, E3, F2, F3. auto.
  - intros d a H N C. apply set_act_in in H. destruct H as (y & Hy & E1 & E2 & E3 & E4 & E5).
    rewrite E4, E5, E2. apply O3; auto; [congruence|]. unfold covered in *. rewrite <- E2, <- E3. auto.
  - intros a H. apply O4. intros d Hd Hs C. destruct (in_set_act l i d Hd) as (x & Hx & E1 & E2 & E3 & E4 & E5).
    apply (H x Hx); [congruence|]. unfold covered in *. rewrite E2, E3. auto.
Qed.


Lemma oinv_remove skip m l i d : uniq l -> oinv skip m l -> nth_error l i = Some d -> did d <> skip ->
  oinv skip (undecode_range (ab d) (ae d) m) (remove_at _ l i).
Proof.
  intros Hu (O1 & O2 & O3 & O4) Hn Hs.
  assert (Hin : In d l) by (eapply nth_error_In; eauto).
  destruct (O1 d Hin Hs) as (W1 & W2 & W3 & W4).
  split; [|split; [|split]].
  - intros x Hx Hxs. apply O1; auto. eapply in_remove_at; eauto.
  - intros x y Hx Hy. apply O2; eapply in_remove_at; eauto.
  - intros x a Hx Hxs Hc. rewrite undecode_range_spec by lia.
    assert (Hne : did x <> did d) by (eapply in_remove_ne; eauto).
    pose proof (in_remove_at _ _ _ Hx) as Hx'.
    destruct (O2 x d Hx' Hin Hxs Hs Hne) as [D|D]; unfold covered in Hc;
    (destruct ((ab d <=? a) && (a <=? ae d)) eqn:E; [lia|]); apply O3; auto.
  - intros a Ha. rewrite undecode_range_spec by lia.
    destruct ((ab d <=? a) && (a <=? ae d)) eqn:E; [reflexivity|].
    apply O4. intros x Hx Hxs Hc. destruct (Z.eq_dec (did x) (did d)) as [He|Hne].
    + assert (x = d) by (eapply uniq_in; eauto). subst x. unfold covered in Hc. lia.
    + apply (Ha x); auto. eapply in_remove_at_other; eauto. congruence.
Qed.

Lemma oinv_replace skip m m' l i d d' : uniq l -> oinv skip m l -> nth_error l i = Some d -> did d <> skip ->
  did d' = did d -> dchip d' = dchip d -> ab d <= ab d' <= ae d' -> ae d' <= ae d ->
  cb d' = cb d + (ab d' - ab d) ->
  (forall a, m' a = if ((ab d <=? a) && (a <=? ae d)) && negb ((ab d' <=? a) && (a <=? ae d')) then None else m a) ->
  oinv skip m' (upd l i d').
Proof.
  intros Hu (O1 & O2 & O3 & O4) Hn Hs Hid Hch Hab Hae Hcb Hm.
  assert (Hin : In d l) by (eapply nth_error_In; eauto).
  destruct (O1 d Hin Hs) as (W1 & W2 & W3 & W4).
  split; [|split; [|split]].
  - intros x Hx Hxs. apply (in_upd l i d d' x Hu Hn Hid) in Hx.
    destruct Hx as [->|(Hx & Hne)]; [|apply O1; auto].
    unfold wf. rewrite Hch. lia.
  - intros x y Hx Hy Nx Ny Nxy.
    apply (in_upd l i d d' x Hu Hn Hid) in Hx. apply (in_upd l i d d' y Hu Hn Hid) in Hy.
    destruct Hx as [->|(Hx & Hnx)]; destruct Hy as [->|(Hy & Hny)]; try congruence.
    + pose proof (O2 d y Hin Hy Hs Ny ltac:(congruence)) as D. unfold disjoint in *. lia.
    + pose proof (O2 x d Hx Hin Nx Hs ltac:(congruence)) as D. unfold disjoint in *. lia.
    + apply O2; auto.
  - intros x a Hx Nx Hc. apply (in_upd l i d d' x Hu Hn Hid) in Hx. rewrite Hm.
    destruct Hx as [->|(Hx & Hnx)]; unfold covered in Hc.
    + destruct ((ab d' <=? a) && (a <=? ae d')) eqn:E; [|lia]. rewrite andb_false_r.
      rewrite (O3 d a Hin Hs) by (unfold covered; lia). rewrite Hch. f_equal. lia.
    + pose proof (O2 x d Hx Hin Nx Hs ltac:(congruence)) as D. unfold disjoint in D.
      destruct ((ab d <=? a) && (a <=? ae d)) eqn:E; [lia|]. cbn [andb]. apply O3; auto.
  - intros a Ha. rewrite Hm.
    destruct ((ab d <=? a) && (a <=? ae d)) eqn:E; cbn [andb].
    + destruct ((ab d' <=? a) && (a <=? ae d')) eqn:E2; [|reflexivity].
      exfalso. apply (Ha d'); [apply (in_upd l i d d' d' Hu Hn Hid); auto|congruence|unfold covered; lia].
    + apply O4. intros x Hx Nx Hc. destruct (Z.eq_dec (did x) (did d)) as [He|Hne].
      * assert (x = d) by (eapply uniq_in; eauto). subst x. unfold covered in Hc. lia.
      * apply (Ha x); auto. apply (in_upd l i d d' x Hu Hn Hid). auto.
Qed.

Lemma oinv_add skip m m' l p x : oinv skip m l -> wf x -> 
  (forall d, In d l -> did d <> skip -> clear_of d (ab x) (ae x)) ->
  (forall a, m' a = if (ab x <=? a) && (a <=? ae x) then slot (dchip x) (cb x + (a - ab x)) else m a) ->
  did x <> skip -> (forall d, In d l -> did d <> did x) ->
  oinv skip m' (insert_at _ l p x).
Proof.
  intros (O1 & O2 & O3 & O4) Hwf Hcl Hm Hs Hne. pose proof Hwf as (W1 & W2 & W3 & W4).
  split; [|split; [|split]].
  - intros d Hd Nd. apply in_insert in Hd. destruct Hd as [->|Hd]; auto.
  - intros d1 d2 H1 H2 N1 N2 N12. apply in_insert in H1. apply in_insert in H2.
    destruct H1 as [->|H1]; destruct H2 as [->|H2]; try congruence.
    + pose proof (Hcl d2 H2 N2) as C. unfold clear_of in C. unfold disjoint. lia.
    + pose proof (Hcl d1 H1 N1) as C. unfold clear_of in C. unfold disjoint. lia.
    + apply O2; auto.
  - intros d a Hd Nd Hc. apply in_insert in Hd. rewrite Hm. unfold covered in Hc.
    destruct Hd as [->|Hd].
    + destruct ((ab x <=? a) && (a <=? ae x)) eqn:E; [reflexivity|lia].
    + pose proof (Hcl d Hd Nd) as C. unfold clear_of in C.
      destruct ((ab x <=? a) && (a <=? ae x)) eqn:E; [lia|]. apply O3; auto.
  - intros a Ha. rewrite Hm. destruct ((ab x <=? a) && (a <=? ae x)) eqn:E.
    + exfalso. apply (Ha x); [apply in_insert; auto|auto|unfold covered; lia].
    + apply O4. intros d Hd Nd Hc. apply (Ha d); auto. apply in_insert; auto.
Qed.

(** number of decoders (but the skipped one) that cover the area *)
Definition cnt (skip b e : Z) (l : list dec) : nat :=
  length (filter (fun d => negb (did d =? skip) && covers d b e) l).

Lemma cnt_insert skip b e l p x : (negb (did x =? skip) && covers x b e) = false ->
  cnt skip b e (insert_at _ l p x) = cnt skip b e l.
Proof.
  intros H. unfold cnt, insert_at. rewrite filter_app. cbn [filter]. rewrite H.
  rewrite <- filter_app, firstn_skipn. reflexivity.
Qed.
Lemma filter_skipn_le {B} (f : B -> bool) i : forall l,
  (length (filter f (skipn (S i) l)) <= length (filter f (skipn i l)))%nat.
Proof.
  induction i as [|i IH]; intros [|h t]; auto.
  - simpl. destruct (f h); simpl; lia.
  - exact (IH t).
Qed.
Lemma cnt_remove skip b e l i : (cnt skip b e (remove_at _ l i) <= cnt skip b e l)%nat.
Proof.
  unfold cnt, remove_at. rewrite <- (firstn_skipn i l) at 3. rewrite !filter_app, !app_length.
  apply Nat.add_le_mono_l. apply filter_skipn_le.
Qed.
Lemma cnt_upd skip b e l i d d' : nth_error l i = Some d ->
  (negb (did d' =? skip) && covers d' b e) = false ->
  (cnt skip b e (upd l i d') + (if negb (did d =? skip)%Z && covers d b e then 1 else 0) = cnt skip b e l)%nat.
Proof.
  unfold cnt. revert l. induction i as [|i IH]; intros [|h t] Hn Hf; simpl in *; try discriminate.
  - injection Hn as ->. rewrite Hf. destruct (negb (did d =? skip) && covers d b e); simpl; lia.
  - specialize (IH t Hn Hf). destruct (negb (did h =? skip) && covers h b e); simpl; lia.
Qed.
Lemma cnt_set_act skip b e l i : cnt skip b e (set_act l i) = cnt skip b e l.
Proof.
  unfold cnt, set_act. induction l as [|h t IH]; simpl; auto.
  replace (negb (did (if did h =? i then mkDec (did h) (ab h) (ae h) (dchip h) (cb h) true else h) =? skip) &&
     covers (if did h =? i then mkDec (did h) (ab h) (ae h) (dchip h) (cb h) true else h) b e)
    with (negb (did h =? skip) && covers h b e).
  - destruct (negb (did h =? skip) && covers h b e); simpl; lia.
  - destruct (did h =? i); reflexivity.
Qed.

(** the new piece [d'] of a decoder [d] after cutting [b..e] out of it *)
Lemma shrink_low d b e m : wf d -> b <= ab d -> ab d <= e -> e < ae d ->
  exists d' m', shrink_out_of start size d b e m = (d', m', false) /\
    did d' = did d /\ dchip d' = dchip d /\ ab d' = e + 1 /\ ae d' = ae d /\
    cb d' = cb d + (ab d' - ab d) /\
    (forall a, m' a = if ((ab d <=? a) && (a <=? ae d)) && negb ((ab d' <=? a) && (a <=? ae d')) then None else m a).
Proof.
  intros (W1 & W2 & W3 & W4) H1 H2 H3. unfold shrink_out_of.
  destruct (ab d <? b) eqn:E1; [lia|]. destruct (e <? ae d) eqn:E2; [|lia].
  destruct (ae d <? e + 1) eqn:E3; [lia|].
  eexists; eexists; split; [reflexivity|]. cbn [did dchip ab ae cb].
  repeat split; auto; try lia. intros a.
  rewrite undecode_range_spec by lia.
  destruct ((ab d <=? a) && (a <=? Z.min e (ae d))) eqn:F1;
  destruct ((ab d <=? a) && (a <=? ae d)) eqn:F2; destruct ((e + 1 <=? a) && (a <=? ae d)) eqn:F3;
  cbn [andb negb]; try lia; auto.
Qed.

Lemma shrink_high d b e m : wf d -> ab d < b -> b <= ae d -> ae d <= e ->
  exists d' m', shrink_out_of start size d b e m = (d', m', false) /\
    did d' = did d /\ dchip d' = dchip d /\ ab d' = ab d /\ ae d' = b - 1 /\
    cb d' = cb d + (ab d' - ab d) /\
    (forall a, m' a = if ((ab d <=? a) && (a <=? ae d)) && negb ((ab d' <=? a) && (a <=? ae d')) then None else m a).
Proof.
  intros (W1 & W2 & W3 & W4) H1 H2 H3. unfold shrink_out_of.
  destruct (ab d <? b) eqn:E1; [|lia]. destruct (e <? b - 1) eqn:E2; [lia|].
  destruct (b - 1 <? ab d) eqn:E3; [lia|].
  eexists; eexists; split; [reflexivity|]. cbn [did dchip ab ae cb].
  repeat split; auto; try lia. intros a.
  rewrite undecode_range_spec by lia.
  destruct ((b <=? a) && (a <=? Z.min e (ae d))) eqn:F1;
  destruct ((ab d <=? a) && (a <=? ae d)) eqn:F2; destruct ((ab d <=? a) && (a <=? b - 1)) eqn:F3;
  cbn [andb negb]; try lia; auto.
Qed.

Lemma nth_insert_le {B} (l : list B) p x i y :
  (forall j z, (j <= i)%nat -> nth_error l j = Some z -> y z) ->
  y x -> forall j z, (j <= i)%nat -> nth_error (insert_at _ l p x) j = Some z -> y z.
Proof.
  revert p i. induction l as [|h t IH]; intros p i Hl Hx j z Hj Hz.
  - unfold insert_at in Hz. rewrite firstn_nil, skipn_nil in Hz. destruct j as [|j]; simpl in Hz.
    + injection Hz as <-. auto.
    + destruct j; discriminate.
  - destruct p as [|p].
    + unfold insert_at in Hz. simpl in Hz. destruct j as [|j].
      * simpl in Hz. injection Hz as <-. auto.
      * simpl in Hz. apply (Hl j z); auto. lia.
    + change (insert_at B (h :: t) (S p) x) with (h :: insert_at B t p x) in Hz.
      destruct j as [|j]; simpl in Hz.
      * injection Hz as <-. apply (Hl O h); auto.
      * destruct i as [|i]; [lia|]. apply (IH p i) with (j := j); auto.
        -- intros j' z' Hj' Hz'. apply (Hl (S j') z'); auto. lia.
        -- lia.
Qed.

(** ** the loop of undecode_area *)
Lemma ua_loop_ok k n : forall N b e i st,
  b = ab N -> e = ae N -> wf N ->
  uniq (decs st) -> oinv (did N) (map st) (decs st) -> In N (decs st) ->
  (forall j d, (j < i)%nat -> nth_error (decs st) j = Some d -> did d <> did N -> clear_of d b e) ->
  (length (decs st) + cnt (did N) b e (decs st) <= i + n)%nat ->
  exists st', ua_loop (activate (S k)) n (did N) b e i st = Ok st' /\
    uniq (decs st') /\ oinv (did N) (map st') (decs st') /\ In N (decs st') /\
    (forall d, In d (decs st') -> did d <> did N -> clear_of d b e) /\
    (forall a, ~ (b <= a <= e) -> map st' a = map st a).
Proof.
  induction n as [|n IH]; intros N b e i st Eb Ee Hwf Hu Ho HN Hdone Hfuel.
  - (* no fuel: the list has been processed *)
    cbn [DecModel.ua_loop]. destruct (nth_error (decs st) i) as [d|] eqn:E.
    + assert (i < length (decs st))%nat by (apply nth_error_Some; congruence). lia.
    + exists st. split; [reflexivity|]. split; auto. split; auto. split; auto. split; auto.
      intros d Hd Nd. apply In_nth_error in Hd. destruct Hd as (j & Hj).
      assert (j < length (decs st))%nat by (apply nth_error_Some; congruence).
      apply (Hdone j d); auto. lia.
  - cbn [DecModel.ua_loop]. destruct (nth_error (decs st) i) as [d|] eqn:E.
    2:{ exists st. split; [reflexivity|]. split; auto. split; auto. split; auto. split; auto.
        intros d Hd Nd. apply In_nth_error in Hd. destruct Hd as (j & Hj).
        assert (j < length (decs st))%nat by (apply nth_error_Some; congruence).
        apply nth_error_None in E.
        apply (Hdone j d); auto. lia. }
    assert (Hilt : (i < length (decs st))%nat) by (apply nth_error_Some; congruence).
    assert (HwN : b <= e) by (subst; destruct Hwf as (? & ?); lia).
    assert (HN1 : start <= b /\ e < start + size) by (subst; destruct Hwf as (? & ? & ?); lia).
    destruct (did d =? did N) eqn:Es.
    { (* the skipped one *)
      apply IH; auto; [|lia].
      intros j x Hj Hx Nx. destruct (Nat.eq_dec j i) as [->|]; [|apply (Hdone j x); auto; lia].
      rewrite E in Hx. injection Hx as <-. lia. }
    assert (Nd : did d <> did N) by lia.
    assert (Hd : In d (decs st)) by (eapply nth_error_In; eauto).
    pose proof Ho as (O1 & O2 & O3 & O4). pose proof (O1 d Hd Nd) as Hwd.
    pose proof Hwd as (W1 & W2 & W3 & W4).
    (* a replaced decoder: common part of three cases *)
    assert (Hrep : forall d' m', did d' = did d -> dchip d' = dchip d -> ab d <= ab d' <= ae d' -> ae d' <= ae d ->
      cb d' = cb d + (ab d' - ab d) ->
      (forall a, m' a = if ((ab d <=? a) && (a <=? ae d)) && negb ((ab d' <=? a) && (a <=? ae d')) then None else map st a) ->
      clear_of d' b e -> (forall a, covered d a -> ~ covered d' a -> b <= a <= e) ->
      exists st', ua_loop (activate (S k)) n (did N) b e (S i) (mkSt m' (upd (decs st) i d')) = Ok st' /\
        uniq (decs st') /\ oinv (did N) (map st') (decs st') /\ In N (decs st') /\
        (forall x, In x (decs st') -> did x <> did N -> clear_of x b e) /\
        (forall a, ~ (b <= a <= e) -> map st' a = map st a)).
    { intros d' m' R1 R2 R3 R4 R5 R6 R7 R8.
      destruct (IH N b e (S i) (mkSt m' (upd (decs st) i d'))) as (st' & U1 & U2 & U3 & U4 & U5 & U6); auto; cbn [decs map].
      - eapply uniq_upd; eauto.
      - eapply oinv_replace; eauto.
      - apply (in_upd (decs st) i d d' N Hu E R1). right. split; auto.
      - intros j x Hj Hx Nx. destruct (Nat.eq_dec j i) as [->|Hji].
        + rewrite nth_error_upd_same in Hx by auto. injection Hx as <-. auto.
        + rewrite nth_error_upd_other in Hx by auto. apply (Hdone j x); auto. lia.
      - rewrite upd_length.
        pose proof (cnt_upd (did N) b e (decs st) i d d' E) as Hc.
        assert (Hf : negb (did d' =? did N) && covers d' b e = false).
        { unfold covers, clear_of in *. lia. }
        specialize (Hc Hf). destruct (negb (did d =? did N) && covers d b e); lia.
      - exists st'. split; [exact U1|]. split; auto. split; auto. split; auto. split; auto.
        intros a Ha. rewrite U6 by auto. cbn [map]. rewrite R6.
        destruct ((ab d <=? a) && (a <=? ae d)) eqn:F1; cbn [andb]; [|reflexivity].
        destruct ((ab d' <=? a) && (a <=? ae d')) eqn:F2; cbn [negb]; [reflexivity|].
        exfalso. apply Ha. apply R8; unfold covered; lia. }
    unfold fully_covered_by. destruct ((b <=? ab d) && (ae d <=? e)) eqn:Efc.
    { (* removed *)
      cbn [decs].
      assert (HN' : In N (remove_at _ (decs st) i)).
      { eapply in_remove_at_other; eauto. congruence. }
      destruct (Nat.eqb (length (remove_at dec (decs st) i)) 0) eqn:E0.
      { apply Nat.eqb_eq in E0. destruct (remove_at dec (decs st) i); [destruct HN'|discriminate]. }
      destruct (IH N b e i (mkSt (undecode_range (ab d) (ae d) (map st)) (remove_at _ (decs st) i)))
        as (st' & U1 & U2 & U3 & U4 & U5 & U6); auto; cbn [decs map].
      - apply uniq_remove; auto.
      - apply oinv_remove; auto.
      - intros j x Hj Hx Nx. apply (Hdone j x); auto.
        unfold remove_at in Hx. rewrite nth_error_app1 in Hx by (rewrite firstn_length; lia).
        rewrite nth_firstn in Hx by lia. exact Hx.
      - rewrite remove_len by auto. pose proof (cnt_remove (did N) b e (decs st) i). lia.
      - exists st'. split; [exact U1|]. split; auto. split; auto. split; auto. split; auto.
        intros a Ha. rewrite U6 by auto. cbn [map]. rewrite undecode_range_spec by lia.
        destruct ((ab d <=? a) && (a <=? ae d)) eqn:F; [lia|reflexivity]. }
    unfold covers at 1. destruct ((ab d <=? b) && (e <=? ae d)) eqn:Ecov.
    { (* split *)
      unfold split. destruct (ab d <? b) eqn:E1.
      - destruct (shrink_high d b (ae d) (map st) Hwd) as (d' & m' & S1 & S2 & S3 & S4 & S5 & S6 & S7); try lia.
        rewrite S1. destruct (e <? ae d) eqn:E2.
        + (* two parts *)
          set (x := mkDec (fresh (decs st)) (e + 1) (ae d) (dchip d) (cb d + (e - ab d) + 1) false).
          cbn [decs map].
          assert (Hfr : forall y, In y (decs st) -> did y <> did x).
          { intros y Hy. pose proof (fresh_gt _ _ Hy). subst x; cbn [did]. lia. }
          assert (Hu' : uniq (upd (decs st) i d')) by (eapply uniq_upd; eauto).
          assert (Ho' : oinv (did N) m' (upd (decs st) i d')).
          { eapply oinv_replace; eauto; lia. }
          assert (Hfr' : forall y, In y (upd (decs st) i d') -> did y <> did x).
          { intros y Hy. apply (in_upd (decs st) i d d' y Hu E S2) in Hy.
            destruct Hy as [->|(Hy & _)]; auto. rewrite S2. auto. }
          assert (Hclx : forall y, In y (upd (decs st) i d') -> clear_of y (ab x) (ae x) /\ ab y <= ae y).
          { intros y Hy. apply (in_upd (decs st) i d d' y Hu E S2) in Hy. subst x; cbn [ab ae]. unfold clear_of.
            destruct Hy as [->|(Hy & Hne)]; [lia|].
            destruct (Z.eq_dec (did y) (did N)) as [Hyn|Hyn].
            - assert (y = N) by (apply (uniq_in (decs st)); auto). subst y. destruct Hwf as (? & ?). lia.
            - destruct (O1 y Hy Hyn) as (? & ?).
              pose proof (O2 y d Hy Hd Hyn Nd Hne) as D. unfold disjoint in D. lia. }
          assert (Hwx : wf x) by (unfold wf; subst x; cbn [ab ae cb dchip]; lia).
          set (st2 := mkSt m' (add_dec pos (upd (decs st) i d') x)).
          destruct (activate_clear st2 x k Hwx) as (st3 & A1 & A2 & A3).
          { subst st2. cbn [decs]. unfold add_dec. apply in_insert; auto. }
          { subst st2. cbn [decs]. unfold add_dec. intros y Hy Hne. apply in_insert in Hy.
            destruct Hy as [->|Hy]; [congruence|]. auto. }
          { subst st2. cbn [map]. intros a Ha. unfold covered in Ha. subst x; cbn [ab ae] in Ha.
            rewrite S7. destruct ((ab d <=? a) && (a <=? ae d)) eqn:F1; [|lia].
            destruct ((ab d' <=? a) && (a <=? ae d')) eqn:F2; [lia|]. reflexivity. }
          change (DecModel.activate start size csize pos (S k) x st2) with (activate (S k) x st2).
          fold st2. cbv zeta. match goal with |- context[rbind ?q _] => change q with (activate (S k) x st2) end.
          rewrite A1. cbn [rbind].
          assert (Hx3 : uniq (decs st2)).
          { subst st2; cbn [decs]. unfold uniq, add_dec. rewrite map_insert. apply nodup_insert; auto.
            intros Hin. apply in_map_iff in Hin. destruct Hin as (y & Hy & Hin). apply (Hfr' y Hin). auto. }
          assert (Ho3 : oinv (did N) (map st3) (decs st2)).
          { subst st2; cbn [decs map] in *. unfold add_dec.
            apply (oinv_add (did N) m' (map st3)); auto.
            - intros y Hy Ny. apply Hclx; auto.
            - intros Heq. apply (Hfr N HN). auto. }
          assert (HN3 : In N (decs st2)).
          { subst st2; cbn [decs]. unfold add_dec. apply in_insert. right.
            apply (in_upd (decs st) i d d' N Hu E S2). right. split; auto. }
          assert (Hcnt3 : (cnt (did N) b e (decs st2) + 1 = cnt (did N) b e (decs st))%nat).
          { subst st2; cbn [decs]. unfold add_dec. rewrite cnt_insert.
            - pose proof (cnt_upd (did N) b e (decs st) i d d' E) as Hc.
              assert (Hf : negb (did d' =? did N) && covers d' b e = false) by (unfold covers; lia).
              specialize (Hc Hf). rewrite Es in Hc. cbn [negb andb] in Hc. 
              change (covers d b e) with ((ab d <=? b) && (e <=? ae d)) in Hc.
              rewrite Ecov in Hc. exact Hc.
            - subst x. unfold covers; cbn [ab ae did]. lia. }
          assert (Hdone3 : forall j y, (j < S i)%nat -> nth_error (decs st2) j = Some y -> did y <> did N -> clear_of y b e).
          { subst st2; cbn [decs]. unfold add_dec. intros j y Hj Hy.
            assert (Hj' : (j <= i)%nat) by lia. clear Hj. revert j y Hj' Hy.
            refine (nth_insert_le _ _ x i (fun y => did y <> did N -> clear_of y b e) _ _).
            - intros j y Hj Hy Ny. destruct (Nat.eq_dec j i) as [->|Hji].
              + rewrite nth_error_upd_same in Hy by auto. injection Hy as <-. unfold clear_of. lia.
              + rewrite nth_error_upd_other in Hy by auto. apply (Hdone j y); auto. lia.
            - intros _. subst x. unfold clear_of; cbn [ab ae]. lia. }
          assert (Hlen3 : length (decs st2) = S (length (decs st))).
          { subst st2; cbn [decs]. unfold add_dec. rewrite insert_len, upd_length. reflexivity. }
          assert (Hmap3 : forall a, ~ (b <= a <= e) -> map st3 a = map st a).
          { intros a Ha. rewrite A3. subst st2; cbn [map]. subst x; cbn [ab ae dchip cb].
            destruct ((e + 1 <=? a) && (a <=? ae d)) eqn:F.
            - rewrite (O3 d a Hd Nd) by (unfold covered; lia). f_equal. lia.
            - rewrite S7. destruct ((ab d <=? a) && (a <=? ae d)) eqn:F1; cbn [andb]; [|reflexivity].
              destruct ((ab d' <=? a) && (a <=? ae d')) eqn:F2; cbn [negb]; [reflexivity|lia]. }
          clearbody st2. clear A1 A3. clearbody x.
          assert (Hgen : exists st', ua_loop (activate (S k)) n (did N) b e (S i) st3 = Ok st' /\
            uniq (decs st') /\ oinv (did N) (map st') (decs st') /\ In N (decs st') /\
            (forall d0, In d0 (decs st') -> did d0 <> did N -> clear_of d0 b e) /\
            (forall a, ~ (b <= a <= e) -> map st' a = map st3 a)).
          { apply IH; auto.
            - destruct A2 as [->| ->]; [auto|apply uniq_set_act; auto].
            - destruct A2 as [->| ->]; [auto|apply oinv_set_act; auto].
            - destruct A2 as [->| ->]; [auto|]. unfold set_act. apply in_map_iff. exists N. split; auto.
              assert (did N <> did x) by (apply Hfr; auto). destruct (did N =? did x) eqn:?; [lia|reflexivity].
            - destruct A2 as [->| ->]; [auto|]. intros j y Hj Hy Ny. rewrite nth_set_act in Hy.
              destruct (nth_error (decs st2) j) as [z|] eqn:Ez; [|discriminate]. cbn [option_map] in Hy.
              injection Hy as <-. pose proof (Hdone3 j z Hj Ez) as Hz. unfold clear_of in *.
              destruct (did z =? did x); cbn [ab ae did] in *; apply Hz; auto.
            - destruct A2 as [->| ->]; rewrite ?set_act_len, ?cnt_set_act; lia. }
          destruct Hgen as (st' & U1 & U2 & U3 & U4 & U5 & U6).
          exists st'. split; [exact U1|]. split; auto. split; auto. split; auto. split; auto.
          intros a Ha. rewrite U6 by auto. auto.
        + (* one part, the lower *)
          cbn [decs map]. apply Hrep; auto; try lia.
          * unfold clear_of. lia.
          * unfold covered. intros. lia.
      - destruct (e <? ae d) eqn:E2; [|lia].
        destruct (shrink_low d (ab d) e (map st) Hwd) as (d' & m' & S1 & S2 & S3 & S4 & S5 & S6 & S7); try lia.
        rewrite S1. cbn [decs map]. apply Hrep; auto; try lia.
        + unfold clear_of. lia.
        + unfold covered. intros. lia. }
    unfold is_in. destruct ((ab d <=? b) && (b <=? ae d) || (ab d <=? e) && (e <=? ae d)) eqn:Ein.
    { destruct (Z_lt_le_dec (ab d) b) as [Hlt|Hge].
      - destruct (shrink_high d b e (map st) Hwd) as (d' & m' & S1 & S2 & S3 & S4 & S5 & S6 & S7); try lia.
        rewrite S1. apply Hrep; auto; try lia.
        + unfold clear_of. lia.
        + unfold covered. intros. lia.
      - destruct (shrink_low d b e (map st) Hwd) as (d' & m' & S1 & S2 & S3 & S4 & S5 & S6 & S7); try lia.
        rewrite S1. apply Hrep; auto; try lia.
        + unfold clear_of. lia.
        + unfold covered. intros. lia. }
    apply IH; auto; [|lia].
    intros j y Hj Hy Ny. destruct (Nat.eq_dec j i) as [->|]; [|apply (Hdone j y); auto; lia].
    rewrite E in Hy. injection Hy as <-. unfold clear_of. lia.
Qed.

(** ** the whole list *)
Definition ginv (st : dstate) : Prop :=
  uniq (decs st) /\
  (forall d, In d (decs st) -> wf d) /\
  (forall d1 d2, In d1 (decs st) -> In d2 (decs st) -> did d1 <> did d2 -> disjoint d1 d2) /\
  (forall d a, In d (decs st) -> covered d a -> map st a = slot (dchip d) (cb d + (a - ab d))) /\
  (forall a, (forall d, In d (decs st) -> ~ covered d a) -> map st a = None).

Lemma cnt_le skip b e l : (cnt skip b e l <= length l)%nat.
Proof. unfold cnt. induction l as [|h t IH]; simpl; auto. destruct (_ && _); simpl; lia. Qed.

Lemma activate_S k d st : activate (S k) d st =
    if (ae d <? ab d) || (csize (dchip d) <=? cb d) ||
       (ab d <? start) || (u32 (start + size) <=? ae d) ||
       (u32 (csize (dchip d) - cb d) <? u32 (ae d - ab d))
    then Ok st
    else
      st1 <- ua_loop (activate k) (2 * length (decs st) + 4) (did d) (ab d) (ae d) 0 st ;;
      Ok (mkSt (decode_loop (Z.to_nat (ae d - ab d + 1)) (ab d) (cb d) (dchip d) (map st1))
               (set_act (decs st1) (did d))).
Proof. reflexivity. Qed.

Lemma create_accepted st r : ginv st -> sane_req r -> accepted start size csize r ->
  r_end r - r_begin r + slack <= csize (r_chip r) - r_cbegin r ->
  exists st', create start size csize pos st r = Ok st' /\ ginv st' /\
    (forall a, r_begin r <= a <= r_end r -> map st' a = slot (r_chip r) (r_cbegin r + (a - r_begin r))) /\
    (forall a, ~ (r_begin r <= a <= r_end r) -> map st' a = map st a).
Proof.
  intros (Hu & G1 & G2 & G3 & G4) (R1 & R2 & R3) (A1 & A2 & A3 & A4) Hsl.
  destruct Sane as (HS1 & HS2 & HS3 & HS4). pose proof (HS4 (r_chip r)) as Hcs.
  unfold create.
  rewrite (u32_id (start + size - 1)) by lia.
  rewrite (u32_id (csize (r_chip r) - r_cbegin r)) by lia.
  rewrite (u32_id (r_end r - r_begin r)) by lia.
  destruct ((r_end r <? r_begin r) || (csize (r_chip r) <=? r_cbegin r) || (r_begin r <? start) ||
    (start + size - 1 <? r_end r) || (csize (r_chip r) - r_cbegin r <? r_end r - r_begin r)) eqn:EC; [lia|].
  set (N := mkDec (fresh (decs st)) (r_begin r) (r_end r) (r_chip r) (r_cbegin r) false).
  assert (HwN : wf N) by (unfold wf; subst N; cbn; lia).
  assert (Hfr : forall d, In d (decs st) -> did d <> did N).
  { intros d Hd. pose proof (fresh_gt _ _ Hd). subst N; cbn [did]. lia. }
  set (l1 := add_dec pos (decs st) N).
  assert (Hu1 : uniq l1).
  { subst l1. unfold uniq, add_dec. rewrite map_insert. apply nodup_insert; auto.
    intros Hin. apply in_map_iff in Hin. destruct Hin as (y & Hy & Hin). apply (Hfr y Hin). auto. }
  assert (Hin1 : forall d, In d l1 <-> d = N \/ In d (decs st)) by (intros d; apply in_insert).
  assert (Ho1 : oinv (did N) (map st) l1).
  { split; [|split; [|split]].
    - intros d Hd Nd. apply Hin1 in Hd. destruct Hd as [->|Hd]; [congruence|auto].
    - intros d1 d2 H1 H2 N1 N2 N12. apply Hin1 in H1. apply Hin1 in H2.
      destruct H1 as [->|H1]; [congruence|]. destruct H2 as [->|H2]; [congruence|]. auto.
    - intros d a Hd Nd Hc. apply Hin1 in Hd. destruct Hd as [->|Hd]; [congruence|auto].
    - intros a Ha. apply G4. intros d Hd Hc. apply (Ha d); auto. apply Hin1; auto. }
  rewrite activate_S.
  rewrite (u32_id (start + size)) by lia.
  replace (u32 (csize (dchip N) - cb N)) with (csize (dchip N) - cb N) by (rewrite u32_id; subst N; cbn [dchip cb]; lia).
  replace (u32 (ae N - ab N)) with (ae N - ab N) by (rewrite u32_id; subst N; cbn [ab ae]; lia).
  match goal with |- context[if ?c then Ok _ else _] => destruct c eqn:EC2 end.
  { exfalso. subst N; cbn [ab ae cb dchip] in EC2. lia. }
  cbn [decs map].
  destruct (ua_loop_ok 0 (2 * length l1 + 4) N (ab N) (ae N) 0 (mkSt (map st) l1))
    as (st1 & U1 & U2 & U3 & U4 & U5 & U6); auto; cbn [decs map].
  { apply Hin1; auto. }
  { intros; lia. }
  { pose proof (cnt_le (did N) (ab N) (ae N) l1). lia. }
  rewrite U1. cbn [rbind].
  eexists. split; [reflexivity|].
  set (m2 := decode_loop _ _ _ _ (map st1)).
  assert (Hm2 : forall a, m2 a = if (r_begin r <=? a) && (a <=? r_end r) then slot (r_chip r) (r_cbegin r + (a - r_begin r)) else map st1 a).
  { intros a. subst m2 N. cbn [ab ae cb dchip]. rewrite decode_loop_spec by lia.
    destruct ((r_begin r <=? a) && (a <? r_begin r + Z.of_nat (Z.to_nat (r_end r - r_begin r + 1)))) eqn:F1;
    destruct ((r_begin r <=? a) && (a <=? r_end r)) eqn:F2; try lia; auto. }
  clearbody m2.
  assert (HNonly : forall d, In d (decs st1) -> did d = did N -> d = N) by (intros d Hd Hdid; eapply uniq_in; eauto).
  destruct U3 as (V1 & V2 & V3 & V4).
  assert (EabN : ab N = r_begin r) by reflexivity. assert (EaeN : ae N = r_end r) by reflexivity.
  assert (EchN : dchip N = r_chip r) by reflexivity. assert (EcbN : cb N = r_cbegin r) by reflexivity.
  clearbody N.
  assert (Hall : forall x, In x (set_act (decs st1) (did N)) -> exists y, In y (decs st1) /\ did x = did y /\ ab x = ab y /\ ae x = ae y /\ dchip x = dchip y /\ cb x = cb y) by (intros ? Hq; exact (set_act_in _ _ _ Hq)).
  split; [|split].
  - unfold ginv; cbn [decs map]. split; [apply uniq_set_act; auto|]. split; [|split; [|split]].
    + intros x Hx. destruct (Hall x Hx) as (y & Hy & E1 & E2 & E3 & E4 & E5).
      apply (wf_eq x y); auto. destruct (Z.eq_dec (did y) (did N)) as [e|e]; [|auto].
      rewrite (HNonly y Hy e). auto.
    + intros x1 x2 Hx1 Hx2 Hne. destruct (Hall x1 Hx1) as (y & Hy & E1 & E2 & E3 & E4 & E5).
      destruct (Hall x2 Hx2) as (z & Hz & F1 & F2 & F3 & F4 & F5).
      unfold disjoint. rewrite E2, E3, F2, F3.
      destruct (Z.eq_dec (did y) (did N)) as [e|e]; destruct (Z.eq_dec (did z) (did N)) as [e'|e'].
      * congruence.
      * rewrite (HNonly y Hy e). pose proof (U5 z Hz e') as C. unfold clear_of in C. lia.
      * rewrite (HNonly z Hz e'). pose proof (U5 y Hy e) as C. unfold clear_of in C. lia.
      * pose proof (V2 y z Hy Hz e e' ltac:(congruence)) as D. unfold disjoint in D. lia.
    + intros x a Hx Hc. destruct (Hall x Hx) as (y & Hy & E1 & E2 & E3 & E4 & E5).
      unfold covered in Hc. rewrite E2, E3 in Hc. rewrite E2, E4, E5, Hm2.
      destruct (Z.eq_dec (did y) (did N)) as [e|e].
      * rewrite (HNonly y Hy e) in *. destruct ((r_begin r <=? a) && (a <=? r_end r)) eqn:F; [congruence|lia].
      * pose proof (U5 y Hy e) as C. unfold clear_of in C.
        destruct ((r_begin r <=? a) && (a <=? r_end r)) eqn:F; [lia|]. apply V3; auto.
    + intros a Ha. rewrite Hm2.
      assert (HN' : ~ covered N a).
      { destruct (in_set_act (decs st1) (did N) N U4) as (x & Hx & E1 & E2 & E3 & _).
        intros Hc. apply (Ha x Hx). unfold covered in *. rewrite E2, E3. auto. }
      unfold covered in HN'.
      destruct ((r_begin r <=? a) && (a <=? r_end r)) eqn:F; [lia|]. apply V4.
      intros d Hd _ Hc. destruct (in_set_act (decs st1) (did N) d Hd) as (x & Hx & E1 & E2 & E3 & _).
      apply (Ha x Hx). unfold covered in *. rewrite E2, E3. auto.
  - intros a Ha. cbn [map]. rewrite Hm2. destruct ((r_begin r <=? a) && (a <=? r_end r)) eqn:F; [reflexivity|lia].
  - intros a Ha. cbn [map]. rewrite Hm2. destruct ((r_begin r <=? a) && (a <=? r_end r)) eqn:F; [lia|].
    rewrite U6; auto. rewrite EabN, EaeN. auto.
Qed.

Lemma create_rejected st r : sane_req r -> ~ accepted start size csize r ->
  create start size csize pos st r = Ok st.
Proof.
  intros (R1 & R2 & R3) Hn. destruct Sane as (HS1 & HS2 & HS3 & HS4). pose proof (HS4 (r_chip r)) as Hcs.
  unfold create. rewrite (u32_id (start + size - 1)) by lia.
  match goal with |- context[if ?c then _ else _] => destruct c eqn:EC end; [reflexivity|].
  exfalso. apply Hn. rewrite (u32_id (csize (r_chip r) - r_cbegin r)) in EC by lia.
  rewrite (u32_id (r_end r - r_begin r)) in EC by lia.
  unfold accepted. lia.
Qed.

Lemma accepted_dec r : {accepted start size csize r} + {~ accepted start size csize r}.
Proof.
  unfold accepted.
  destruct (Z_le_dec start (r_begin r)); [|right; lia].
  destruct (Z_le_dec (r_begin r) (r_end r)); [|right; lia].
  destruct (Z_lt_dec (r_end r) (start + size)); [|right; lia].
  destruct (Z_lt_dec (r_cbegin r) (csize (r_chip r))); [|right; lia].
  destruct (Z_le_dec (r_end r - r_begin r) (csize (r_chip r) - r_cbegin r)); [left|right]; lia.
Qed.

Lemma ginv_init : ginv init_state.
Proof.
  unfold ginv, init_state; cbn. split; [constructor|]. repeat split; try tauto; intros; tauto.
Qed.

Lemma create_all_ok rs : forall st, ginv st -> Forall sane_req rs ->
  (forall r, In r rs -> accepted start size csize r -> r_end r - r_begin r + slack <= csize (r_chip r) - r_cbegin r) ->
  exists st', create_all start size csize pos st rs = Ok st' /\ ginv st'.
Proof.
  induction rs as [|r rs IH]; intros st G Hs Hf; cbn [create_all].
  - eauto.
  - inversion Hs as [|? ? Hr Hrs]; subst.
    destruct (accepted_dec r) as [Ha|Ha].
    + destruct (create_accepted st r G Hr Ha) as (st1 & E1 & G1 & _); [apply Hf; [left; auto|auto]|].
      rewrite E1. cbn [rbind]. apply IH; auto. intros; apply Hf; [right|]; auto.
    + rewrite create_rejected by auto. cbn [rbind]. apply IH; auto. intros; apply Hf; [right|]; auto.
Qed.
End P.

Lemma ginv_windows start size csize slack st : ginv start size csize slack st -> windows_ok start size st.
Proof.
  intros (Hu & G1 & G2 & _). split.
  - intros d Hd. destruct (G1 d Hd) as (? & ? & _). lia.
  - intros i j d1 d2 Hne H1 H2. apply G2; try (eapply nth_error_In; eauto).
    intros He. apply Hne. eapply uniq_nth; eauto.
Qed.

Lemma dec_history start size csize pos rs :
  sane start size csize -> Forall sane_req rs ->
  exists st, create_all start size csize pos init_state rs = Ok st /\ windows_ok start size st /\
    (forall d a, In d (decs st) -> covered d a ->
       map st a = if snd (shown d a) <? csize (fst (shown d a)) then Some (shown d a) else None) /\
    (forall a, (forall d, In d (decs st) -> ~ covered d a) -> map st a = None).
Proof.
  intros HS Hr. destruct (create_all_ok start size csize pos HS 0 ltac:(lia) rs init_state) as (st & E & G); auto.
  - apply ginv_init.
  - intros r _ (_ & _ & _ & A). lia.
  - exists st. split; auto. split; [eapply ginv_windows; eauto|].
    destruct G as (_ & _ & _ & G3 & G4). split; auto.
    intros d a Hd Hc. rewrite (G3 d a Hd Hc). unfold slot, shown; cbn [fst snd].
    destruct (csize (dchip d) <=? cb d + (a - ab d)) eqn:E1;
    destruct (cb d + (a - ab d) <? csize (dchip d)) eqn:E2; try lia; auto.
Qed.

Lemma dec_history_fit start size csize pos rs :
  sane start size csize -> Forall sane_req rs -> Forall (fun r => ~ one_too_long csize r) rs ->
  exists st, create_all start size csize pos init_state rs = Ok st /\ windows_ok start size st /\
    (forall d a, In d (decs st) -> covered d a -> map st a = Some (shown d a)) /\
    (forall a, (forall d, In d (decs st) -> ~ covered d a) -> map st a = None).
Proof.
  intros HS Hr Hf. destruct (create_all_ok start size csize pos HS 1 ltac:(lia) rs init_state) as (st & E & G); auto.
  - apply ginv_init.
  - intros r Hin (_ & _ & _ & A). rewrite Forall_forall in Hf. specialize (Hf r Hin). unfold one_too_long in Hf. lia.
  - exists st. split; auto. split; [eapply ginv_windows; eauto|].
    destruct G as (_ & G1 & _ & G3 & G4). split; auto.
    intros d a Hd Hc. rewrite (G3 d a Hd Hc). unfold slot, shown, covered in *.
    destruct (G1 d Hd) as (W1 & W2 & W3 & W4).
    destruct (csize (dchip d) <=? cb d + (a - ab d)) eqn:E1; [lia|reflexivity].
Qed.

Lemma activate_window start size csize pos rs st r :
  sane start size csize -> Forall sane_req rs ->
  create_all start size csize pos init_state rs = Ok st ->
  sane_req r -> accepted start size csize r ->
  exists st', create start size csize pos st r = Ok st' /\
    (forall a, r_begin r <= a <= r_end r ->
       map st' a = let l := r_cbegin r + (a - r_begin r) in
                   if l <? csize (r_chip r) then Some (r_chip r, l) else None) /\
    (forall a, ~ (r_begin r <= a <= r_end r) -> map st' a = map st a).
Proof.
  intros HS Hr E Hs Ha.
  destruct (create_all_ok start size csize pos HS 0 ltac:(lia) rs init_state) as (st0 & E0 & G); auto.
  - apply ginv_init.
  - intros q _ (_ & _ & _ & A). lia.
  - rewrite E in E0. injection E0 as <-.
    destruct (create_accepted start size csize pos HS 0 ltac:(lia) st r G Hs Ha) as (st' & E' & _ & M1 & M2).
    + destruct Ha as (_ & _ & _ & A). lia.
    + exists st'. split; auto. split; auto. intros a Hin. rewrite (M1 a Hin). unfold slot. cbv zeta.
      destruct (csize (r_chip r) <=? r_cbegin r + (a - r_begin r)) eqn:E1;
      destruct (r_cbegin r + (a - r_begin r) <? csize (r_chip r)) eqn:E2; try lia; auto.
Qed.

Lemma activate_window_fit start size csize pos rs st r :
  sane start size csize -> Forall sane_req rs ->
  create_all start size csize pos init_state rs = Ok st ->
  sane_req r -> accepted start size csize r -> ~ one_too_long csize r ->
  exists st', create start size csize pos st r = Ok st' /\
    (forall a, r_begin r <= a <= r_end r -> map st' a = Some (r_chip r, r_cbegin r + (a - r_begin r))) /\
    (forall a, ~ (r_begin r <= a <= r_end r) -> map st' a = map st a).
Proof.
  intros HS Hr E Hs Ha Ht.
  destruct (activate_window start size csize pos rs st r HS Hr E Hs Ha) as (st' & E' & M1 & M2).
  exists st'. split; auto. split; auto. intros a Hin. rewrite (M1 a Hin). cbv zeta.
  destruct Ha as (_ & _ & _ & A). unfold one_too_long in Ht.
  destruct (r_cbegin r + (a - r_begin r) <? csize (r_chip r)) eqn:E2; [reflexivity|lia].
Qed.
