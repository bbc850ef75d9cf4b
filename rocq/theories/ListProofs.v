(** Proofs: cl_list refines a mathematical sequence. *)
From Verif Require Import Base ListModel ListSpec.

Section P.
Variable A : Type.
Variable eqb : A -> A -> bool.
Notation clist := (clist A).
Notation repr := (repr A).

Lemma repr_limit (l : clist) s : repr l s -> count l <= limit _ l <= max_list_size.
Proof. unfold ListSpec.repr, limit. intuition lia. Qed.

Lemma nth_firstn {B} (l : list B) n i : (i < n)%nat -> nth_error (firstn n l) i = nth_error l i.
Proof.
  revert l i; induction n as [|n IH]; intros [|h t] [|i] H; simpl; try lia; auto.
  apply IH; lia.
Qed.

Lemma repr_get (l : clist) s i : repr l s -> (i < length s)%nat ->
  exists x, nth_error s i = Some x /\ nth_error (items l) i = Some (Some x).
Proof.
  intros (Hc & Hf & Hl & _) Hi.
  destruct (nth_error s i) as [x|] eqn:E.
  - exists x; split; auto.
    rewrite <- (nth_firstn (items l) (length s)) by assumption.
    rewrite Hf, nth_error_map, E. reflexivity.
  - apply nth_error_None in E. lia.
Qed.

Lemma get_slot_ok (l : clist) s i : repr l s -> 0 <= i < count l ->
  exists x, nth_error s (Z.to_nat i) = Some x /\ get_slot _ l i = Ok x.
Proof.
  intros R Hi. destruct (repr_get l s (Z.to_nat i) R) as (x & E1 & E2).
  - destruct R as (Hc & _). lia.
  - exists x; split; auto. unfold get_slot.
    destruct (0 <=? i) eqn:?; [|lia]. rewrite E2. reflexivity.
Qed.

Lemma items_split (l : clist) s : repr l s ->
  exists r, items l = map Some s ++ r /\ limit _ l = Z.of_nat (length s) + Z.of_nat (length r).
Proof.
  intros (Hc & Hf & Hl & _).
  exists (skipn (length s) (items l)). split.
  - rewrite <- Hf. symmetry. apply firstn_skipn.
  - unfold limit. rewrite skipn_length. lia.
Qed.

Lemma firstn_map {B C} (f : B -> C) n l : firstn n (map f l) = map f (firstn n l).
Proof. revert l; induction n; intros [|h t]; simpl; congruence. Qed.
Lemma skipn_map {B C} (f : B -> C) n l : skipn n (map f l) = map f (skipn n l).
Proof. revert l; induction n; intros [|h t]; simpl; auto. Qed.

Lemma disconn_at_ok (l : clist) s i : repr l s -> 0 <= i < count l ->
  exists l', disconn_at _ l i = Ok l' /\ repr l' (remove_at _ s (Z.to_nat i)) /\ delta l' = delta l.
Proof.
  intros R Hi. pose proof R as (Hc & Hf & Hl & Hm & Hd).
  destruct (items_split l s R) as (r & E & EL).
  unfold disconn_at. destruct ((i <? 0) || (count l <=? i)) eqn:?; [lia|].
  unfold memmove, limit; cbn [count delta items].
  match goal with |- context[if ?c then _ else _] => destruct c eqn:C end;
    [|unfold limit in *; lia].
  eexists; split; [reflexivity|]. split; [|reflexivity].
  set (k := Z.to_nat i). assert (Hk : (k < length s)%nat) by lia.
  unfold remove_at.
  assert (Hlen : length (firstn k s ++ skipn (S k) s) = (length s - 1)%nat).
  { rewrite app_length, firstn_length, skipn_length. lia. }
  assert (Hit : firstn k (items l) ++
      firstn (Z.to_nat (count l - 1 - i)) (skipn (Z.to_nat (i + 1)) (items l)) ++
      skipn (Z.to_nat (i + (count l - 1 - i))) (items l) =
      map Some (firstn k s ++ skipn (S k) s) ++ skipn (length s - 1) (items l)).
  { rewrite E.
    replace (Z.to_nat (i + 1)) with (S k) by lia.
    replace (Z.to_nat (count l - 1 - i)) with (length s - S k)%nat by lia.
    replace (Z.to_nat (i + (count l - 1 - i))) with (length s - 1)%nat by lia.
    rewrite map_app, <- app_assoc. f_equal; [|f_equal].
    - rewrite firstn_app. rewrite map_length.
      replace (k - length s)%nat with O by lia. rewrite app_nil_r. apply firstn_map.
    - rewrite skipn_app, map_length. replace (S k - length s)%nat with O by lia.
      rewrite skipn_O. rewrite firstn_app.
      rewrite skipn_map, map_length, skipn_length.
      replace (length s - S k - (length s - S k))%nat with O by lia.
      rewrite app_nil_r. rewrite firstn_map. rewrite firstn_all2; [reflexivity|].
      rewrite skipn_length. lia. }
  unfold ListSpec.repr; cbn [count delta items].
  rewrite Hit, Hlen.
  repeat split.
  - lia.
  - rewrite firstn_app. rewrite map_length, Hlen.
    replace (length s - 1 - (length s - 1))%nat with O by lia.
    rewrite app_nil_r. apply firstn_all2. rewrite map_length. lia.
  - rewrite app_length, map_length, skipn_length. lia.
  - rewrite app_length, map_length, skipn_length. lia.
  - assumption.
Qed.

Lemma set_limit_ok (l : clist) s a : repr l s ->
  repr (set_limit _ l a) s /\ delta (set_limit _ l a) = delta l /\
  limit _ (set_limit _ l a) = Z.min max_list_size (Z.max a (count l)).
Proof.
  intros R. pose proof R as (Hc & Hf & Hl & Hm & Hd). unfold set_limit.
  set (a1 := if a <? count l then count l else a).
  set (a2 := if max_list_size <? a1 then max_list_size else a1).
  assert (Ha2 : a2 = Z.min max_list_size (Z.max a (count l))).
  { subst a1 a2. destruct (a <? count l) eqn:?;
    match goal with |- context[max_list_size <? ?x] => destruct (max_list_size <? x) eqn:? end; lia. }
  destruct (a2 =? limit _ l) eqn:E.
  - repeat split; auto; lia.
  - cbn [delta]. unfold limit; cbn [items].
    assert (HL : length (firstn (Z.to_nat (count l)) (items l) ++
       repeat None (Z.to_nat a2 - Z.to_nat (count l))) = Z.to_nat a2).
    { rewrite app_length, firstn_length, repeat_length. unfold max_list_size in *. lia. }
    repeat split; cbn [count delta items]; auto.
    + replace (Z.to_nat (count l)) with (length s) by lia. rewrite Hf.
      rewrite firstn_app, map_length. replace (length s - length s)%nat with O by lia.
      rewrite app_nil_r. apply firstn_all2. rewrite map_length; lia.
    + rewrite HL. unfold max_list_size in *. lia.
    + rewrite HL. unfold max_list_size in *. lia.
    + rewrite HL. unfold max_list_size in *. lia.
Qed.

Lemma firstn_upd_len {B} (l : list B) n (x : B) : length (upd l n x) = length l.
Proof. apply upd_length. Qed.

Lemma upd_app_r {B} (l m : list B) n (x : B) :
  (length l <= n)%nat -> upd (l ++ m) n x = l ++ upd m (n - length l) x.
Proof.
  revert n; induction l as [|h t IH]; intros n H; simpl in *.
  - f_equal; lia.
  - destruct n as [|n]; [lia|]. rewrite IH by lia. reflexivity.
Qed.

Lemma add_at_ok (l : clist) s i x : repr l s -> 0 <= i <= count l ->
  count l + 1 <= max_list_size ->
  exists l', add_at _ l i x = Ok l' /\ repr l' (insert_at _ s (Z.to_nat i) x).
Proof.
  intros R Hi Hmax. pose proof R as (Hc & Hf & Hl & Hm & Hd).
  unfold add_at. destruct (i <? 0) eqn:?; [lia|].
  set (l1 := if count l =? limit _ l then set_limit _ l (count l + delta l) else l).
  assert (R1 : repr l1 s /\ count l + 1 <= limit _ l1 /\ count l1 = count l).
  { subst l1. destruct (count l =? limit _ l) eqn:E.
    - destruct (set_limit_ok l s (count l + delta l) R) as (R1 & _ & HL).
      split; [exact R1|]. split.
      + rewrite HL. lia.
      + destruct R1 as (H1 & _). lia.
    - split; [exact R|]. split; [|reflexivity]. unfold limit in *; lia. }
  clearbody l1. destruct R1 as (R1 & HL1 & Hc1).
  pose proof R1 as (Hc' & Hf' & Hl' & Hm' & Hd').
  destruct (items_split l1 s R1) as (r & E & EL).
  unfold memmove.
  match goal with |- context[if ?c then _ else _] => destruct c eqn:C end;
    [|unfold limit in *; lia].
  cbn [rbind]. unfold put_slot, limit; cbn [count delta items].
  set (k := Z.to_nat i). assert (Hk : (k <= length s)%nat) by lia.
  assert (Hr : exists r0 r1, r = r0 :: r1).
  { destruct r as [|r0 r1]; [simpl in EL; lia| eauto]. }
  destruct Hr as (r0 & r1 & ->).
  assert (Hmm : exists y, firstn (Z.to_nat (i + 1)) (items l1) ++
      firstn (Z.to_nat (count l1 - i)) (skipn k (items l1)) ++
      skipn (Z.to_nat (i + 1 + (count l1 - i))) (items l1) =
      map Some (firstn k s) ++ y :: map Some (skipn k s) ++ r1).
  { rewrite E.
    assert (Hy : exists y t, skipn k (map Some s ++ r0 :: r1) = y :: t).
    { destruct (skipn k (map Some s ++ r0 :: r1)) as [|y t] eqn:Ey; [|eauto].
      apply (f_equal (@length _)) in Ey. rewrite skipn_length, app_length, map_length in Ey.
      simpl in Ey. lia. }
    destruct Hy as (y & t & Hy). exists y.
    replace (Z.to_nat (i + 1)) with (k + 1)%nat by lia.
    assert (Hfirst : firstn (k + 1) (map Some s ++ r0 :: r1) = map Some (firstn k s) ++ [y]).
    { rewrite <- (firstn_skipn k (map Some s ++ r0 :: r1)) at 1. rewrite Hy.
      rewrite firstn_app. rewrite firstn_length, app_length, map_length. simpl length.
      rewrite firstn_all2 by (rewrite firstn_length, app_length, map_length; simpl; lia).
      replace (k + 1 - Nat.min k (length s + S (length r1)))%nat with 1%nat by lia.
      simpl firstn at 2. f_equal.
      rewrite firstn_app, map_length. replace (k - length s)%nat with O by lia.
      rewrite app_nil_r. apply firstn_map. }
    rewrite Hfirst, <- app_assoc. f_equal. cbn [app]. f_equal. f_equal.
    - rewrite skipn_app, map_length. replace (k - length s)%nat with O by lia. rewrite skipn_O.
      rewrite firstn_app, skipn_map, map_length, skipn_length.
      replace (Z.to_nat (count l1 - i)) with (length s - k)%nat by lia.
      replace (length s - k - (length s - k))%nat with O by lia.
      cbn [firstn]. rewrite app_nil_r. apply firstn_all2. rewrite map_length, skipn_length. lia.
    - replace (Z.to_nat (i + 1 + (count l1 - i))) with (length s + 1)%nat by lia.
      rewrite skipn_app, map_length. rewrite skipn_all2 by (rewrite map_length; lia).
      replace (length s + 1 - length s)%nat with 1%nat by lia. reflexivity. }
  destruct Hmm as (y & Hmm). fold k. rewrite Hmm.
  assert (Hlen : length (map Some (firstn k s) ++ y :: map Some (skipn k s) ++ r1) = length (items l1)).
  { rewrite E. rewrite !app_length. simpl. rewrite !app_length, !map_length, firstn_length, skipn_length.
    lia. }
  rewrite Hlen.
  match goal with |- context[if ?c then _ else _] => destruct c eqn:C2 end;
    [|unfold limit in *; lia].
  eexists; split; [reflexivity|].
  rewrite upd_app_r by (rewrite map_length, firstn_length; lia).
  rewrite map_length, firstn_length. replace (k - Nat.min k (length s))%nat with O by lia.
  cbn [upd]. unfold insert_at.
  assert (Hits : map Some (firstn k s) ++ Some x :: map Some (skipn k s) ++ r1 =
    map Some (firstn k s ++ x :: skipn k s) ++ r1).
  { rewrite map_app. cbn [map]. rewrite <- app_assoc. reflexivity. }
  assert (Hn : length (firstn k s ++ x :: skipn k s) = S (length s)).
  { rewrite app_length; simpl. rewrite firstn_length, skipn_length. lia. }
  rewrite Hits. unfold ListSpec.repr; cbn [count delta items]. rewrite Hn.
  repeat split.
  - lia.
  - rewrite firstn_app, map_length, Hn. replace (S (length s) - S (length s))%nat with O by lia.
    rewrite app_nil_r. apply firstn_all2. rewrite map_length; lia.
  - rewrite app_length, map_length, Hn. lia.
  - rewrite app_length, map_length, Hn. unfold limit in *. simpl length in EL. rewrite E, app_length, map_length in *. simpl length in *. lia.
  - assumption.
Qed.

Lemma put_at_ok (l : clist) s i x : repr l s -> 0 <= i < count l ->
  exists l', put_at _ l i x = Ok l' /\ repr l' (upd s (Z.to_nat i) x).
Proof.
  intros R Hi. pose proof R as (Hc & Hf & Hl & Hm & Hd).
  destruct (items_split l s R) as (r & E & EL).
  unfold put_at. destruct (count l <=? i) eqn:?; [lia|].
  unfold put_slot. match goal with |- context[if ?c then _ else _] => destruct c eqn:C end;
    [|unfold limit in *; lia].
  eexists; split; [reflexivity|].
  unfold ListSpec.repr; cbn [count delta items]. rewrite !upd_length.
  repeat split; auto.
  assert (Hu : upd (items l) (Z.to_nat i) (Some x) = map Some (upd s (Z.to_nat i) x) ++ r).
  { rewrite E. assert (Hlt : (Z.to_nat i < length s)%nat) by lia.
    clear - Hlt. revert Hlt. generalize (Z.to_nat i). clear i.
    induction s as [|h t IH]; intros [|k] Hlt; simpl in *; try lia; auto.
    rewrite IH by lia. reflexivity. }
  rewrite Hu. rewrite firstn_app, map_length, upd_length.
  replace (length s - length s)%nat with O by lia. rewrite app_nil_r.
  apply firstn_all2. rewrite map_length, upd_length. lia.
Qed.

Lemma find_from_ok its i n x s :
  firstn n its = map Some s -> length s = n ->
  find_from _ eqb its i n x = Ok (option_map (fun k => Z.of_nat (i + k)) (pos_of _ eqb s x)).
Proof.
  revert its i s; induction n as [|n IH]; intros its i s Hf Hl.
  - destruct s; [reflexivity|discriminate].
  - destruct s as [|y s]; [discriminate|].
    destruct its as [|o its]; [discriminate|]. simpl in Hf. injection Hf as -> Hf.
    cbn [find_from pos_of].
    destruct (eqb x y).
    + simpl. do 2 f_equal. lia.
    + rewrite (IH its (S i) s Hf) by (simpl in Hl; lia).
      destruct (pos_of A eqb s x); simpl; [|reflexivity]. do 2 f_equal. lia.
Qed.

Lemma index_of_ok (l : clist) s x : repr l s ->
  index_of _ eqb l x = Ok (option_map Z.of_nat (pos_of _ eqb s x)).
Proof.
  intros (Hc & Hf & _). unfold index_of.
  rewrite (find_from_ok (items l) 0 _ x s).
  - reflexivity.
  - replace (Z.to_nat (count l)) with (length s) by lia. exact Hf.
  - lia.
Qed.

Lemma pos_of_lt s x k : pos_of _ eqb s x = Some k -> (k < length s)%nat.
Proof.
  revert k; induction s as [|y s IH]; simpl; intros k H; [discriminate|].
  destruct (eqb x y).
  - injection H as <-. lia.
  - destruct (pos_of A eqb s x); [|discriminate]. injection H as <-.
    specialize (IH _ eq_refl). lia.
Qed.

Lemma next_from_ok its n x s :
  firstn n its = map Some s -> length s = n ->
  next_from _ eqb its n x =
    Ok (match pos_of _ eqb s x with Some k => nth_error s (S k) | None => None end).
Proof.
  revert its s; induction n as [|n IH]; intros its s Hf Hl.
  - destruct s; [reflexivity|discriminate].
  - destruct s as [|y s]; [discriminate|].
    destruct its as [|o its]; [discriminate|]. simpl in Hf. injection Hf as -> Hf.
    cbn [next_from pos_of].
    destruct (eqb x y).
    + destruct s as [|z s].
      * simpl in Hl. assert (n = O) by lia. subst n. reflexivity.
      * simpl in Hl. destruct n as [|n]; [lia|].
        destruct its as [|o its]; [discriminate|]. simpl in Hf. injection Hf as -> Hf.
        reflexivity.
    + rewrite (IH its s Hf) by (simpl in Hl; lia).
      destruct (pos_of A eqb s x); reflexivity.
Qed.

Lemma next_ok (l : clist) s x : repr l s ->
  next _ eqb l x =
    Ok (match pos_of _ eqb s x with Some k => nth_error s (S k) | None => None end).
Proof.
  intros (Hc & Hf & _). unfold next. apply next_from_ok; [|lia].
  replace (Z.to_nat (count l)) with (length s) by lia. exact Hf.
Qed.

Lemma at_ok (l : clist) s i : repr l s ->
  at_ _ l i = if in_seq _ s i
              then match nth_error s (Z.to_nat i) with Some x => Ok x | None => Exit end
              else Exit.
Proof.
  intros R. pose proof R as (Hc & _). unfold at_, in_seq.
  destruct ((i <? 0) || (count l <=? i)) eqn:E1;
  destruct ((0 <=? i) && (i <? Z.of_nat (length s))) eqn:E2; try lia; auto.
  destruct (get_slot_ok l s i R) as (x & Ex & Eg); [lia|].
  rewrite Ex, Eg. reflexivity.
Qed.

Lemma top_ok (l : clist) s : repr l s -> top _ l = Ok (hd_error s).
Proof.
  intros R. pose proof R as (Hc & _). unfold top.
  destruct (count l =? 0) eqn:E.
  - destruct s; [reflexivity|simpl in Hc; lia].
  - destruct (get_slot_ok l s 0 R) as (x & Ex & Eg); [lia|].
    rewrite Eg. cbn [rbind]. destruct s; simpl in *; congruence.
Qed.

Lemma pop_ok (l : clist) s : repr l s ->
  exists l', pop _ l = Ok (hd_error s, l') /\ repr l' (tl s).
Proof.
  intros R. pose proof R as (Hc & _). unfold pop.
  destruct (count l =? 0) eqn:E.
  - destruct s; [|simpl in Hc; lia]. eauto.
  - destruct (get_slot_ok l s 0 R) as (x & Ex & Eg); [lia|].
    destruct (disconn_at_ok l s 0 R) as (l' & El & R' & _); [lia|].
    rewrite Eg, El. cbn [rbind]. exists l'.
    destruct s as [|y s]; [discriminate|]. simpl in Ex. injection Ex as ->.
    split; [reflexivity|exact R'].
Qed.

(** one step *)
Lemma lstep_ok (l : clist) s o : repr l s ->
  (forall s', sstep _ eqb s o = Ok s' -> Z.of_nat (length s') <= max_list_size) ->
  match sstep _ eqb s o with
  | Ok s' => exists l', lstep _ eqb l o = Ok l' /\ repr l' s'
  | Exit => lstep _ eqb l o = Exit
  | UB => lstep _ eqb l o = UB
  end.
Proof.
  intros R Hfit. pose proof R as (Hc & Hf & Hl & Hm & Hd).
  destruct o as [x|x|i x|i x|i|x| | |i]; cbn [sstep lstep] in *.
  - (* add *)
    specialize (Hfit _ eq_refl). rewrite app_length in Hfit. simpl in Hfit.
    unfold add. destruct (add_at_ok l s (count l) x R) as (l' & El & R'); [lia|lia|].
    exists l'; split; auto. unfold insert_at in R'.
    rewrite firstn_all2 in R' by lia. rewrite skipn_all2 in R' by lia. exact R'.
  - (* push *)
    specialize (Hfit _ eq_refl). simpl in Hfit.
    unfold push. destruct (count l =? 0) eqn:E0.
    + unfold add. destruct (add_at_ok l s (count l) x R) as (l' & El & R'); [lia|lia|].
      exists l'; split; auto. destruct s; [|simpl in Hc; lia].
      unfold insert_at in R'. rewrite firstn_nil, skipn_nil in R'. exact R'.
    + destruct (add_at_ok l s 0 x R) as (l' & El & R'); [lia|lia|].
      exists l'; split; auto.
  - (* add_at *)
    destruct (i <? 0) eqn:E0.
    + unfold add_at. rewrite E0. reflexivity.
    + destruct (i <=? Z.of_nat (length s)) eqn:E1.
      * specialize (Hfit _ eq_refl). unfold insert_at in Hfit.
        rewrite app_length in Hfit. simpl in Hfit. rewrite firstn_length, skipn_length in Hfit.
        apply add_at_ok; auto; lia.
      * unfold add_at. rewrite E0.
        set (l1 := if count l =? limit _ l then set_limit _ l (count l + delta l) else l).
        assert (Hc1 : count l1 = count l).
        { subst l1. destruct (count l =? limit _ l); [|reflexivity].
          unfold set_limit. match goal with |- context[if ?c then l else _] => destruct c end; reflexivity. }
        unfold memmove. match goal with |- context[if ?c then Ok _ else _] => destruct c eqn:C end;
          [lia|reflexivity].
  - (* put_at *)
    destruct (Z.of_nat (length s) <=? i) eqn:E0.
    + unfold put_at. rewrite Hc, E0. reflexivity.
    + destruct (0 <=? i) eqn:E1.
      * apply put_at_ok; auto. lia.
      * unfold put_at. rewrite Hc, E0. unfold put_slot. rewrite E1. reflexivity.
  - (* disconn_at *)
    unfold in_seq. destruct ((0 <=? i) && (i <? Z.of_nat (length s))) eqn:E.
    + destruct (disconn_at_ok l s i R) as (l' & El & R' & _); [lia|]. eauto.
    + unfold disconn_at. destruct ((i <? 0) || (count l <=? i)) eqn:E1; [reflexivity|lia].
  - (* disconn *)
    unfold disconn. rewrite (index_of_ok l s x R). cbn [rbind].
    destruct (pos_of A eqb s x) as [k|] eqn:Ep; cbn [option_map].
    + apply pos_of_lt in Ep.
      destruct (disconn_at_ok l s (Z.of_nat k) R) as (l' & El & R' & _); [lia|].
      rewrite Nat2Z.id in R'. eauto.
    + eauto.
  - (* disconn_all *)
    eexists; split; [reflexivity|]. unfold disconn_all, ListSpec.repr; cbn [count delta items].
    simpl. repeat split; auto. lia.
  - (* pop *)
    destruct (pop_ok l s R) as (l' & El & R'). rewrite El. cbn [rbind snd]. eauto.
  - (* free_at *)
    unfold free_at. rewrite (at_ok l s i R).
    unfold in_seq. destruct ((0 <=? i) && (i <? Z.of_nat (length s))) eqn:E.
    + destruct (nth_error s (Z.to_nat i)) eqn:En.
      * cbn [rbind]. destruct (disconn_at_ok l s i R) as (l' & El & R' & _); [lia|]. eauto.
      * apply nth_error_None in En. lia.
    + reflexivity.
Qed.

Lemma lrun_ok ops : forall (l : clist) s, repr l s -> fits _ eqb s ops = true ->
  match srun _ eqb s ops with
  | Ok s' => exists l', lrun _ eqb l ops = Ok l' /\ repr l' s'
  | Exit => lrun _ eqb l ops = Exit
  | UB => lrun _ eqb l ops = UB
  end.
Proof.
  induction ops as [|o ops IH]; intros l s R Hfit; cbn [srun lrun fits] in *.
  - eauto.
  - assert (Hs := lstep_ok l s o R).
    destruct (sstep A eqb s o) as [s1| |]; cbn [rbind] in *.
    + apply andb_prop in Hfit. destruct Hfit as [Hf1 Hf2].
      destruct Hs as (l1 & E1 & R1).
      { intros s' E. injection E as <-. lia. }
      rewrite E1. cbn [rbind]. apply IH; auto.
    + rewrite Hs by (intros; discriminate). reflexivity.
    + rewrite Hs by (intros; discriminate). reflexivity.
Qed.

Lemma new_list_ok lim del : 0 <= lim -> 1 <= del ->
  repr (new_list _ lim del) [] /\
  limit A (new_list A lim del) = Z.min max_list_size lim.
Proof.
  intros Hl Hd.
  assert (R0 : repr (mkList 0 del []) []).
  { unfold ListSpec.repr; cbn; repeat split; auto; unfold max_list_size; lia. }
  destruct (set_limit_ok _ _ lim R0) as (R & _ & HL).
  split; [exact R|]. unfold new_list. rewrite HL. cbn [count]. lia.
Qed.

(** the list object at its hard capacity: one more item overruns the storage *)
Lemma full_add_ub (l : clist) s x : repr l s -> Z.of_nat (length s) = max_list_size ->
  add _ l x = UB.
Proof.
  intros R Hfull. pose proof R as (Hc & Hf & Hl & Hm & Hd).
  unfold add, add_at. destruct (count l <? 0) eqn:?; [lia|].
  destruct (set_limit_ok l s (count l + delta l) R) as ((Hc1 & _) & _ & HL).
  set (l1 := if count l =? limit _ l then _ else l).
  assert (H1 : count l1 = count l /\ limit _ l1 = max_list_size).
  { subst l1. destruct (count l =? limit _ l) eqn:E.
    - split; [lia|]. rewrite HL. lia.
    - split; auto. unfold limit in *. lia. }
  destruct H1 as (H1 & H2).
  unfold memmove. match goal with |- context[if ?c then Ok _ else _] => destruct c eqn:C end;
    [lia|reflexivity].
Qed.
End P.

Lemma lrun_app A eqb (ops1 ops2 : list (lop A)) l l1 :
  lrun _ eqb l ops1 = Ok l1 -> lrun _ eqb l (ops1 ++ ops2) = lrun _ eqb l1 ops2.
Proof.
  revert l; induction ops1 as [|o t IH]; intros l; cbn [lrun app].
  - intros E; injection E as ->. reflexivity.
  - destruct (lstep A eqb l o); cbn [rbind]; try discriminate. apply IH.
Qed.

Lemma adds_ok A eqb (x : A) n : forall l s, repr A l s ->
  Z.of_nat (length s + n) <= max_list_size ->
  exists l', lrun _ eqb l (repeat (LAdd _ x) n) = Ok l' /\ repr A l' (s ++ repeat x n).
Proof.
  induction n as [|n IH]; intros l s R H; cbn [repeat lrun].
  - rewrite app_nil_r. eauto.
  - destruct (lstep_ok A eqb l s (LAdd _ x) R) as (l1 & E1 & R1).
    { cbn. intros s' E; injection E as <-. rewrite app_length; simpl. lia. }
    rewrite E1. cbn [rbind].
    destruct (IH l1 (s ++ [x]) R1) as (l2 & E2 & R2).
    { rewrite app_length; simpl. lia. }
    exists l2; split; auto. rewrite <- app_assoc in R2. exact R2.
Qed.

(** From the empty list, 8193 additions end in undefined behaviour. *)
Lemma add_8193 A eqb (x : A) lim del : 0 <= lim -> 1 <= del ->
  lrun _ eqb (new_list _ lim del) (repeat (LAdd _ x) (Z.to_nat 8192) ++ [LAdd _ x]) = UB.
Proof.
  intros Hl Hd. destruct (new_list_ok A lim del Hl Hd) as (R & _).
  destruct (adds_ok A eqb x (Z.to_nat 8192) _ _ R) as (l' & E & R').
  { simpl length. unfold max_list_size. lia. }
  rewrite (lrun_app _ _ _ _ _ _ E). cbn [lrun lstep].
  rewrite (full_add_ub A eqb l' _ x R').
  - reflexivity.
  - rewrite app_length, repeat_length. simpl length. unfold max_list_size. lia.
Qed.

Lemma repr_observes A eqb (l : clist A) s : repr A l s -> observes eqb l s.
Proof.
  intros R. unfold observes. repeat split.
  - apply R.
  - intros i. apply (at_ok A eqb); assumption.
  - intros x. apply index_of_ok; assumption.
  - intros x. apply next_ok; assumption.
  - apply (top_ok A eqb); assumption.
  - destruct (pop_ok A eqb l s R) as (l' & E & _). eauto.
Qed.

Lemma list_refines A eqb lim del ops :
  0 <= lim -> 1 <= del -> fits A eqb [] ops = true ->
  match srun A eqb [] ops with
  | Ok s => exists l, lrun A eqb (new_list A lim del) ops = Ok l /\ observes eqb l s
  | Exit => lrun A eqb (new_list A lim del) ops = Exit
  | UB => lrun A eqb (new_list A lim del) ops = UB
  end.
Proof.
  intros Hl Hd Hf. destruct (new_list_ok A lim del Hl Hd) as (R & _).
  pose proof (lrun_ok A eqb ops _ _ R Hf) as H.
  destruct (srun A eqb [] ops); auto.
  destruct H as (l' & E & R'). exists l'. split; auto. apply repr_observes; auto.
Qed.

Lemma srun_adds A eqb (x : A) n s : srun A eqb s (repeat (LAdd _ x) n) = Ok (s ++ repeat x n).
Proof.
  revert s; induction n as [|n IH]; intros s; cbn [repeat srun sstep rbind].
  - now rewrite app_nil_r.
  - rewrite IH, <- app_assoc. reflexivity.
Qed.

Lemma list_capacity_refuted A eqb (x : A) lim del : 0 <= lim -> 1 <= del ->
  exists ops s, srun A eqb [] ops = Ok s /\ lrun A eqb (new_list A lim del) ops = UB.
Proof.
  intros Hl Hd. exists (repeat (LAdd _ x) (Z.to_nat 8192) ++ [LAdd _ x]).
  exists (repeat x (S (Z.to_nat 8192))). split.
  - assert (E : repeat (LAdd A x) (Z.to_nat 8192) ++ [LAdd A x] = repeat (LAdd A x) (S (Z.to_nat 8192))).
    { generalize (Z.to_nat 8192). intros n. cbn [repeat]. rewrite repeat_cons. reflexivity. }
    rewrite E. rewrite srun_adds. reflexivity.
  - apply add_8193; assumption.
Qed.
