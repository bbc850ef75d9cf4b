From Verif Require Import Base ListModel ListSpec ListProofs SortedModel SortedSpec.

Section P.
Variables (A K : Type).
Variable eqb : A -> A -> bool.
Variable key_of : A -> K.
Variable cmp : K -> K -> Z.
Variable dup : bool.
Hypothesis PO : preorder cmp.
Notation nless := (nless A K key_of cmp).
Notation has_key := (has_key A K key_of cmp).
Notation ordered := (ordered A K key_of cmp dup).
Notation search_loop := (search_loop A K key_of cmp dup).
Notation R x y := (if dup then cmp (key_of x) (key_of y) <= 0 else cmp (key_of x) (key_of y) < 0).

Lemma R_le x y : R x y -> cmp (key_of x) (key_of y) <= 0.
Proof. destruct dup; lia. Qed.

Lemma cmp_le_lt a b c : cmp a b <= 0 -> cmp b c < 0 -> cmp a c < 0.
Proof.
  intros H1 H2. destruct (Z_lt_le_dec (cmp a c) 0) as [|H]; auto. exfalso.
  (* c <= a <= b  contradicts b < c *)
  assert (cmp c a <= 0).
  { destruct (Z_lt_le_dec 0 (cmp c a)) as [Hl|]; [|lia]. apply (po_anti _ PO) in Hl. lia. }
  assert (cmp c b <= 0) by (eapply (po_trans _ PO); eauto).
  apply (po_anti _ PO) in H2. lia.
Qed.

Lemma cmp_ge_mono a b k : cmp a b <= 0 -> 0 <= cmp a k -> 0 <= cmp b k.
Proof.
  intros H1 H2. destruct (Z_lt_le_dec (cmp b k) 0) as [H|]; [|lia].
  pose proof (cmp_le_lt _ _ _ H1 H). lia.
Qed.

Lemma ordered_nth s i j x y : ordered s -> (i < j)%nat ->
  nth_error s i = Some x -> nth_error s j = Some y -> R x y.
Proof.
  intros Hs. revert i j. induction Hs as [|z s Hs IH Hf]; intros [|i] [|j] Hij Hi Hj; simpl in *; try lia; try discriminate.
  - injection Hi as <-. rewrite Forall_forall in Hf. apply Hf. eapply nth_error_In; eauto.
  - apply (IH i j); auto; lia.
Qed.

Definition lt_upto (s : list A) (k : K) (n : Z) : Prop :=
  forall i x, (Z.of_nat i < n) -> nth_error s i = Some x -> cmp (key_of x) k < 0.
Definition ge_from (s : list A) (k : K) (n : Z) : Prop :=
  forall i x, (n <= Z.of_nat i) -> nth_error s i = Some x -> 0 <= cmp (key_of x) k.

Lemma nless_split s k n : 0 <= n <= Z.of_nat (length s) -> lt_upto s k n -> ge_from s k n ->
  Z.of_nat (nless s k) = n.
Proof.
  revert n. induction s as [|y s IH]; intros n Hn Hlt Hge.
  - simpl in *. unfold SortedSpec.nless. simpl. lia.
  - unfold SortedSpec.nless. cbn [filter]. destruct (cmp (key_of y) k <? 0) eqn:E.
    + assert (0 < n).
      { destruct (Z_lt_le_dec 0 n); auto. specialize (Hge O y). simpl in Hge.
        assert (0 <= cmp (key_of y) k) by (apply Hge; auto; lia). lia. }
      cbn [length]. fold (nless s k). rewrite Nat2Z.inj_succ. rewrite (IH (n - 1)).
      * lia.
      * simpl in Hn. lia.
      * intros i x Hi Hx. apply (Hlt (S i) x); auto; lia.
      * intros i x Hi Hx. apply (Hge (S i) x); auto; lia.
    + assert (n = 0).
      { destruct (Z_lt_le_dec 0 n); [|lia]. specialize (Hlt O y).
        assert (cmp (key_of y) k < 0) by (apply Hlt; auto; lia). lia. }
      subst n. fold (nless s k). rewrite (IH 0); auto; [lia| |].
      * intros i x Hi. lia.
      * intros i x Hi Hx. apply (Hge (S i) x); auto; lia.
Qed.

Lemma has_key_true s k i x : nth_error s i = Some x -> cmp (key_of x) k = 0 -> has_key s k = true.
Proof.
  intros H E. unfold SortedSpec.has_key. apply existsb_exists. exists x.
  split; [eapply nth_error_In; eauto|]. lia.
Qed.

Lemma has_key_inv s k : has_key s k = true -> exists i x, nth_error s i = Some x /\ cmp (key_of x) k = 0.
Proof.
  unfold SortedSpec.has_key. rewrite existsb_exists. intros (x & Hin & E).
  apply In_nth_error in Hin. destruct Hin as (i & Hi). exists i, x. split; auto. lia.
Qed.

(** the loop *)
Lemma search_loop_ok lst s key : repr A lst s -> ordered s ->
  forall fuel l h r,
  0 <= l -> l <= h + 1 -> h < Z.of_nat (length s) -> (h + 1 - l <= Z.of_nat fuel) ->
  lt_upto s key l -> ge_from s key (h + 1) ->
  (r = true <-> exists i x, h < Z.of_nat i /\ nth_error s i = Some x /\ cmp (key_of x) key = 0) ->
  search_loop fuel lst key l h r = Ok (has_key s key, Z.of_nat (nless s key)).
Proof.
  intros Rp Hs. induction fuel as [|f IH]; intros l h r H0 Hlh Hh Hfu Hlt Hge Hr.
  - assert (l = h + 1) by lia. unfold SortedModel.search_loop.
    destruct (l <=? h) eqn:E; [lia|]. f_equal. f_equal.
    + apply eq_true_iff_eq. rewrite Hr. split.
      * intros (i & x & _ & Hx & Hc). eapply has_key_true; eauto.
      * intros Hk. apply has_key_inv in Hk. destruct Hk as (i & x & Hx & Hc).
        exists i, x. split; auto. destruct (Z_lt_le_dec h (Z.of_nat i)); auto.
        assert (cmp (key_of x) key < 0) by (apply (Hlt i x); auto; lia). lia.
    + symmetry. apply nless_split; auto; try lia.
      subst l. auto.
  - cbn [SortedModel.search_loop]. destruct (l <=? h) eqn:E.
    + set (i := Z.shiftr (l + h) 1).
      assert (Hi : i = (l + h) / 2) by (subst i; rewrite Z.shiftr_div_pow2 by lia; reflexivity).
      assert (Hir : l <= i <= h) by lia.
      destruct (get_slot_ok A eqb lst s i Rp) as (x & Hx & Hg).
      { destruct Rp as (Hc & _). lia. }
      rewrite Hg. cbn [rbind].
      destruct (cmp (key_of x) key <? 0) eqn:C.
      * apply IH; auto; try lia.
        intros j y Hj Hy. destruct (Nat.eq_dec j (Z.to_nat i)) as [->|Hne].
        -- rewrite Hx in Hy. injection Hy as <-. lia.
        -- assert (Hrel : R y x) by (eapply (ordered_nth s j (Z.to_nat i)); eauto; lia).
           apply R_le in Hrel. eapply cmp_le_lt; eauto. lia.
      * assert (Hge' : ge_from s key i).
        { intros j y Hj Hy. destruct (Nat.eq_dec j (Z.to_nat i)) as [->|Hne].
          - rewrite Hx in Hy. injection Hy as <-. lia.
          - assert (Hrel : R x y) by (eapply (ordered_nth s (Z.to_nat i) j); eauto; lia).
            apply R_le in Hrel. eapply cmp_ge_mono; eauto. lia. }
        destruct (cmp (key_of x) key =? 0) eqn:C0.
        -- destruct dup eqn:D.
           ++ (* duplicates: go on to the left *)
              apply IH; auto; try lia.
              ** replace (i - 1 + 1) with i by lia. auto.
              ** split; auto. intros _. exists (Z.to_nat i), x. repeat split; auto; lia.
           ++ (* no duplicates: leave the loop *)
              assert (El : forall q, SortedModel.search_loop A K key_of cmp false q lst key i (i - 1) true = Ok (true, i)).
              { intros [|q]; unfold SortedModel.search_loop; destruct (i <=? i - 1) eqn:EE; try lia; reflexivity. }
              rewrite El. f_equal. f_equal.
              ** symmetry. eapply has_key_true; eauto. lia.
              ** symmetry. apply nless_split; auto; [lia|].
                 intros j y Hj Hy.
                 assert (Hrel : R y x) by (eapply (ordered_nth s j (Z.to_nat i)); eauto; try lia; unfold SortedSpec.ordered; rewrite D; auto).
                 rewrite D in Hrel.
                 eapply (cmp_le_lt (key_of y) (key_of y)).
                 { destruct (Z_lt_le_dec 0 (cmp (key_of y) (key_of y))) as [H1|]; [|lia].
                   pose proof H1 as H2. apply (po_anti _ PO) in H2. lia. }
                 destruct (Z_lt_le_dec (cmp (key_of y) key) 0) as [|Hc]; auto. exfalso.
                 assert (Hk : cmp key (key_of y) <= 0).
                 { destruct (Z_lt_le_dec 0 (cmp key (key_of y))) as [H1|]; [|lia].
                   apply (po_anti _ PO) in H1. lia. }
                 assert (Hxk : cmp (key_of x) key <= 0) by lia.
                 pose proof (po_trans _ PO _ _ _ Hxk Hk) as H3.
                 apply (po_anti _ PO) in Hrel. lia.
        -- apply IH; auto; try lia.
           ++ replace (i - 1 + 1) with i by lia. auto.
           ++ rewrite Hr. split.
              ** intros (j & y & Hj & Hy & Hc). exists j, y. repeat split; auto; lia.
              ** intros (j & y & Hj & Hy & Hc). exists j, y. repeat split; auto.
                 destruct (Z_lt_le_dec h (Z.of_nat j)); auto. exfalso.
                 destruct (Nat.eq_dec j (Z.to_nat i)) as [->|Hne].
                 { rewrite Hx in Hy. injection Hy as <-. lia. }
                 assert (Hrel : R x y) by (eapply (ordered_nth s (Z.to_nat i) j); eauto; lia).
                 apply R_le in Hrel.
                 assert (Hyk : cmp (key_of y) key <= 0) by lia.
                 pose proof (po_trans _ PO _ _ _ Hrel Hyk). lia.
    + (* left the loop *)
      assert (l = h + 1) by lia. f_equal. f_equal.
      * apply eq_true_iff_eq. rewrite Hr. split.
        -- intros (i & x & _ & Hx & Hc). eapply has_key_true; eauto.
        -- intros Hk. apply has_key_inv in Hk. destruct Hk as (i & x & Hx & Hc).
           exists i, x. split; auto. destruct (Z_lt_le_dec h (Z.of_nat i)); auto.
           assert (cmp (key_of x) key < 0) by (apply (Hlt i x); auto; lia). lia.
      * symmetry. apply nless_split; auto; try lia. subst l. auto.
Qed.

Lemma search_ok lst s key : repr A lst s -> ordered s ->
  search A K key_of cmp dup lst key = Ok (has_key s key, Z.of_nat (nless s key)).
Proof.
  intros Rp Hs. unfold search. pose proof Rp as (Hc & _).
  apply (search_loop_ok lst s key Rp Hs); try lia.
  - intros i x Hi. lia.
  - intros i x Hi Hx. assert (i < length s)%nat by (apply nth_error_Some; congruence). lia.
  - split; [discriminate|]. intros (i & x & Hi & Hx & _).
    assert (i < length s)%nat by (apply nth_error_Some; congruence). lia.
Qed.

Lemma nless_le s k : (nless s k <= length s)%nat.
Proof. unfold SortedSpec.nless. induction s as [|y s IH]; simpl; auto. destruct (_ <? 0); simpl; lia. Qed.

Lemma sadd_ok lst s x : repr A lst s -> ordered s -> Z.of_nat (length s) < max_list_size ->
  exists l', sadd A K key_of cmp dup lst x = Ok (l', Z.of_nat (nless s (key_of x))) /\
   repr A l' (if negb (has_key s (key_of x)) || dup then insert_at _ s (nless s (key_of x)) x else s).
Proof.
  intros Rp Hs Hm. unfold sadd. rewrite (search_ok lst s _ Rp Hs). cbn [rbind].
  pose proof Rp as (Hc & _). pose proof (nless_le s (key_of x)) as Hn.
  destruct (negb (has_key s (key_of x)) || dup).
  - destruct (add_at_ok A eqb lst s (Z.of_nat (nless s (key_of x))) x Rp) as (l' & El & R'); try lia.
    rewrite El. cbn [rbind]. rewrite Nat2Z.id in R'. eauto.
  - eauto.
Qed.

Lemma ordered_insert s x : ordered s -> (negb (has_key s (key_of x)) || dup = true) ->
  ordered (insert_at _ s (nless s (key_of x)) x).
Proof.
  intros Hs Hk. induction Hs as [|y s Hs IH Hf].
  - unfold insert_at, SortedSpec.nless; simpl. constructor; constructor.
  - unfold SortedSpec.has_key in Hk. simpl in Hk.
    assert (Hk' : negb (has_key s (key_of x)) || dup = true).
    { unfold SortedSpec.has_key. destruct dup; [apply orb_true_r|].
      destruct (cmp (key_of y) (key_of x) =? 0); simpl in Hk; [discriminate|]. exact Hk. }
    specialize (IH Hk').
    unfold SortedSpec.nless. simpl. destruct (cmp (key_of y) (key_of x) <? 0) eqn:E.
    + simpl. unfold insert_at. cbn [length firstn skipn app].
      constructor; auto. apply Forall_forall. intros z Hz.
      apply in_app_or in Hz. simpl in Hz. rewrite Forall_forall in Hf.
      destruct Hz as [Hz|[Hz|Hz]].
      * apply Hf. rewrite <- (firstn_skipn (nless s (key_of x)) s). apply in_or_app. left. exact Hz.
      * subst z. destruct dup; lia.
      * apply Hf. rewrite <- (firstn_skipn (nless s (key_of x)) s). apply in_or_app. right. exact Hz.
    + (* goes to the front: no element is less *)
      assert (Hall : forall z, In z s -> 0 <= cmp (key_of z) (key_of x)).
      { intros z Hz. rewrite Forall_forall in Hf. specialize (Hf z Hz). apply R_le in Hf.
        eapply cmp_ge_mono; eauto. lia. }
      assert (Hz0 : filter (fun y0 => cmp (key_of y0) (key_of x) <? 0) s = []).
      { clear - Hall. induction s as [|z s IH]; simpl; auto.
        assert (Hz := Hall z (or_introl eq_refl)).
        destruct (cmp (key_of z) (key_of x) <? 0) eqn:E; [lia|]. apply IH. intros w Hw. apply Hall. right; auto. }
      rewrite Hz0. unfold insert_at. simpl. constructor; [constructor; auto|].
      assert (Hy : R x y).
      { destruct dup eqn:D.
        - destruct (Z_lt_le_dec 0 (cmp (key_of x) (key_of y))) as [H1|]; [|lia].
          apply (po_anti _ PO) in H1. lia.
        - assert (cmp (key_of y) (key_of x) <> 0).
          { rewrite orb_false_r in Hk. destruct (cmp (key_of y) (key_of x) =? 0) eqn:E0; [discriminate|lia]. }
          apply (po_anti _ PO). lia. }
      constructor; [exact Hy|].
      apply Forall_forall. intros z Hz. rewrite Forall_forall in Hf. specialize (Hf z Hz).
      destruct dup.
      * eapply (po_trans _ PO); eauto.
      * eapply cmp_le_lt; [|exact Hf]. lia.
Qed.

Lemma sorted_remove {B} (Rel : B -> B -> Prop) s i : StronglySorted Rel s ->
  StronglySorted Rel (firstn i s ++ skipn (S i) s).
Proof.
  intros Hs. revert i. induction Hs as [|y s Hs IH Hf]; intros i.
  - rewrite firstn_nil, skipn_nil. constructor.
  - destruct i as [|i]; simpl; auto.
    constructor; [apply IH|]. apply Forall_forall. intros z Hz. rewrite Forall_forall in Hf.
    apply Hf. apply in_app_or in Hz. destruct Hz as [Hz|Hz].
    + rewrite <- (firstn_skipn i s). apply in_or_app. auto.
    + rewrite <- (firstn_skipn (S i) s). apply in_or_app. auto.
Qed.

Notation spec_step := (spec_step A K eqb key_of cmp dup).
Notation spec_run := (spec_run A K eqb key_of cmp dup).
Notation sstep := (SortedModel.sstep A K eqb key_of cmp dup).
Notation srun := (SortedModel.srun A K eqb key_of cmp dup).

Lemma spec_step_len s o s' : spec_step s o = Ok s' ->
  Z.of_nat (length s') <= Z.of_nat (length s) + (if is_add A o then 1 else 0).
Proof.
  destruct o as [x|x|i|]; cbn; intros E.
  - injection E as <-. destruct (negb _ || dup); [|lia].
    unfold insert_at. rewrite app_length. simpl. rewrite firstn_length, skipn_length. lia.
  - destruct (pos_of A eqb s x); injection E as <-; [|lia].
    unfold remove_at. rewrite app_length, firstn_length, skipn_length. lia.
  - destruct (in_seq A s i); [|discriminate]. injection E as <-.
    unfold remove_at. rewrite app_length, firstn_length, skipn_length. lia.
  - injection E as <-. simpl. lia.
Qed.

Lemma spec_step_ordered s o s' : ordered s -> spec_step s o = Ok s' -> ordered s'.
Proof.
  intros Hs. destruct o as [x|x|i|]; cbn; intros E.
  - injection E as <-. destruct (negb _ || dup) eqn:Hk; [|exact Hs].
    apply ordered_insert; auto.
  - destruct (pos_of A eqb s x); injection E as <-; [|exact Hs]. apply sorted_remove; auto.
  - destruct (in_seq A s i); [|discriminate]. injection E as <-. apply sorted_remove; auto.
  - injection E as <-. constructor.
Qed.

Lemma spec_step_not_ub s o : spec_step s o <> UB.
Proof.
  destruct o as [x|x|i|]; cbn; try discriminate.
  - destruct (pos_of A eqb s x); discriminate.
  - destruct (in_seq A s i); discriminate.
Qed.

Lemma sstep_ok lst s o : repr A lst s -> ordered s ->
  (is_add A o = true -> Z.of_nat (length s) < max_list_size) ->
  match spec_step s o with
  | Ok s' => exists l', sstep lst o = Ok l' /\ repr A l' s'
  | _ => sstep lst o = Exit
  end.
Proof.
  intros Rp Hs Hm.
  destruct o as [x|x|i|]; cbn [SortedSpec.spec_step SortedModel.sstep is_add] in *.
  - destruct (sadd_ok lst s x Rp Hs (Hm eq_refl)) as (l' & E & R').
    rewrite E. cbn [rbind fst]. eauto.
  - pose proof (lstep_ok A eqb lst s (LDisconn _ x) Rp) as H. cbn in H.
    assert (Hb : Z.of_nat (length s) <= max_list_size) by (pose proof (repr_limit A lst s Rp); destruct Rp as (Hc & _); lia).
    destruct (pos_of A eqb s x) as [k|]; apply H; intros s' E; injection E as <-; auto.
    unfold remove_at. rewrite app_length, firstn_length, skipn_length. lia.
  - unfold in_seq. destruct ((0 <=? i) && (i <? Z.of_nat (length s))) eqn:E.
    + destruct (disconn_at_ok A lst s i Rp) as (l' & El & R' & _); [destruct Rp as (Hc & _); lia|]. eauto.
    + unfold disconn_at. destruct ((i <? 0) || (count lst <=? i)) eqn:E1; [reflexivity|destruct Rp as (Hc & _); lia].
  - pose proof (lstep_ok A eqb lst s (LDisconnAll _) Rp) as H. cbn in H.
    apply H. intros s' E; injection E as <-. simpl. unfold max_list_size; lia.
Qed.

Lemma srun_ok ops : forall lst s, repr A lst s -> ordered s ->
  Z.of_nat (length s) + nadds A ops <= max_list_size ->
  match spec_run s ops with
  | Ok s' => ordered s' /\ exists l', srun lst ops = Ok l' /\ repr A l' s'
  | _ => srun lst ops = Exit
  end.
Proof.
  induction ops as [|o ops IH]; intros lst s Rp Hs Hm; cbn [SortedSpec.spec_run SortedModel.srun].
  - eauto.
  - assert (Hm' : Z.of_nat (length s) + (if is_add A o then 1 else 0) + nadds A ops <= max_list_size).
    { unfold nadds in *. simpl in Hm. destruct (is_add A o); simpl in Hm; lia. }
    assert (Hna : 0 <= nadds A ops) by (unfold nadds; lia).
    pose proof (sstep_ok lst s o Rp Hs) as Hst.
    destruct (spec_step s o) as [s1| |] eqn:E; cbn [rbind].
    + destruct Hst as (l1 & E1 & R1). { intros Ho. rewrite Ho in Hm'. lia. }
      rewrite E1. cbn [rbind]. apply IH; auto.
      * eapply spec_step_ordered; eauto.
      * apply spec_step_len in E. lia.
    + rewrite Hst; [reflexivity|]. intros Ho. rewrite Ho in Hm'. lia.
    + exfalso. eapply spec_step_not_ub; eauto.
Qed.

(** index_of *)
Hypothesis eqb_ok : forall x y, eqb x y = true <-> x = y.

Lemma walk_ok lst s x n i : repr A lst s -> 0 <= i <= count lst -> count lst - i <= Z.of_nat n ->
  exists j, walk A eqb n lst i x = Ok j /\ i <= j <= count lst /\
    (forall k y, i <= Z.of_nat k < j -> nth_error s k = Some y -> y <> x) /\
    (j < count lst -> nth_error s (Z.to_nat j) = Some x).
Proof.
  intros Rp. revert i. induction n as [|n IH]; intros i Hi Hn.
  - unfold walk. destruct (i <? count lst) eqn:E; [lia|]. exists i. repeat split; try lia.
    all: intros; lia.
  - cbn [walk]. destruct (i <? count lst) eqn:E.
    + destruct (get_slot_ok A eqb lst s i Rp) as (y & Hy & Hg); [lia|].
      rewrite Hg. cbn [rbind]. destruct (eqb x y) eqn:Ex.
      * apply eqb_ok in Ex. subst y. exists i. repeat split; auto; try lia; intros; lia.
      * destruct (IH (i + 1)) as (j & Ej & Hj & Hne & Hnth); try lia.
        exists j. repeat split; auto; try lia.
        intros k z Hk Hz. destruct (Z.eq_dec (Z.of_nat k) i) as [Hki|].
        -- replace k with (Z.to_nat i) in Hz by lia. rewrite Hy in Hz. injection Hz as <-.
           intros ->. assert (eqb x x = true) by (apply eqb_ok; auto). congruence.
        -- apply (Hne k z); auto; lia.
    + exists i. repeat split; try lia; intros; lia.
Qed.

Lemma sindex_of_ok lst s x : repr A lst s -> ordered s -> dup = true -> cmp (key_of x) (key_of x) = 0 ->
  (forall j, sindex_of A K eqb key_of cmp dup lst x = Ok j ->
     (j = -1 /\ ~ In x s) \/ (0 <= j /\ nth_error s (Z.to_nat j) = Some x /\
         forall k, (k < Z.to_nat j)%nat -> nth_error s k <> Some x)) /\
  exists j, sindex_of A K eqb key_of cmp dup lst x = Ok j.
Proof.
  intros Rp Hs Hd Hxx. unfold sindex_of. rewrite (search_ok lst s _ Rp Hs). cbn [rbind].
  pose proof Rp as (Hc & _). pose proof (nless_le s (key_of x)) as Hnl.
  assert (Hless : forall k, (k < nless s (key_of x))%nat -> nth_error s k <> Some x).
  { (* elements before the insertion point have smaller keys *)
    clear - Hs Hxx PO eqb. induction Hs as [|y s Hs IH Hf]; unfold SortedSpec.nless; simpl; intros k Hk.
    - lia.
    - destruct (cmp (key_of y) (key_of x) <? 0) eqn:E.
      + simpl in Hk. destruct k as [|k]; simpl.
        * intros Heq. injection Heq as ->. lia.
        * apply IH. unfold SortedSpec.nless. lia.
      + exfalso. assert (Hz0 : filter (fun y0 => cmp (key_of y0) (key_of x) <? 0) s = []).
        { assert (Hall : forall z, In z s -> 0 <= cmp (key_of z) (key_of x)).
          { intros z Hz. rewrite Forall_forall in Hf. specialize (Hf z Hz). apply R_le in Hf.
            eapply cmp_ge_mono; eauto. lia. }
          clear - Hall. induction s as [|z s IH]; simpl; auto.
          assert (Hz := Hall z (or_introl eq_refl)).
          destruct (cmp (key_of z) (key_of x) <? 0) eqn:E; [lia|]. apply IH. intros w Hw. apply Hall. right; auto. }
        rewrite Hz0 in Hk. simpl in Hk. lia. }
  destruct (has_key s (key_of x)) eqn:Hk; cbn [negb].
  - rewrite Hd.
    destruct (walk_ok lst s x (Z.to_nat (count lst)) (Z.of_nat (nless s (key_of x))) Rp) as (j & Ej & Hj & Hne & Hnth); try lia.
    rewrite Ej. cbn [rbind]. split.
    + intros j' E. destruct (j <? count lst) eqn:Ejc.
      * injection E as <-. right. split; [lia|]. split; [apply Hnth; lia|].
        intros k Hkj Hkx. destruct (Nat.lt_ge_cases k (nless s (key_of x))) as [Hl|Hg].
        -- eapply Hless; eauto.
        -- eapply (Hne k x); eauto. lia.
      * injection E as <-. left. split; auto. intros Hin. apply In_nth_error in Hin. destruct Hin as (k & Hkx).
        assert (k < length s)%nat by (apply nth_error_Some; congruence).
        destruct (Nat.lt_ge_cases k (nless s (key_of x))) as [Hl|Hg].
        -- eapply Hless; eauto.
        -- eapply (Hne k x); eauto. lia.
    + destruct (j <? count lst); eauto.
  - split; [|eauto]. intros j E. injection E as <-. left. split; auto.
    intros Hin. apply In_nth_error in Hin. destruct Hin as (k & Hkx).
    rewrite (has_key_true s _ k x Hkx Hxx) in Hk. discriminate.
Qed.
End P.

Lemma sorted_history (A K : Type) eqb (key_of : A -> K) cmp dup lim del ops :
  preorder cmp -> 0 <= lim -> 1 <= del -> nadds A ops <= max_list_size ->
  match spec_run A K eqb key_of cmp dup [] ops with
  | Ok s => ordered A K key_of cmp dup s /\
      exists l, srun A K eqb key_of cmp dup (new_list A lim del) ops = Ok l /\
        observes eqb l s /\
        forall k, search A K key_of cmp dup l k =
          Ok (has_key A K key_of cmp s k, Z.of_nat (nless A K key_of cmp s k))
  | _ => srun A K eqb key_of cmp dup (new_list A lim del) ops = Exit
  end.
Proof.
  intros PO Hl Hd Hn. destruct (new_list_ok A lim del Hl Hd) as (R & _).
  pose proof (srun_ok A K eqb key_of cmp dup PO ops _ [] R) as H.
  assert (H0 : ordered A K key_of cmp dup []) by constructor.
  specialize (H H0 Hn).
  destruct (spec_run A K eqb key_of cmp dup [] ops); auto.
  destruct H as (Ho & l & El & Rl). split; auto. exists l. split; auto.
  split; [apply repr_observes; auto|]. intros k. apply (search_ok A K eqb); auto.
Qed.

Lemma sorted_index_of (A K : Type) eqb (key_of : A -> K) cmp lim del ops s l x :
  preorder cmp -> (forall a b, eqb a b = true <-> a = b) -> 0 <= lim -> 1 <= del ->
  nadds A ops <= max_list_size ->
  spec_run A K eqb key_of cmp true [] ops = Ok s ->
  srun A K eqb key_of cmp true (new_list A lim del) ops = Ok l ->
  exists j, sindex_of A K eqb key_of cmp true l x = Ok j /\
    ((j = -1 /\ ~ In x s) \/
     (0 <= j /\ nth_error s (Z.to_nat j) = Some x /\
      forall k, (k < Z.to_nat j)%nat -> nth_error s k <> Some x)).
Proof.
  intros PO Heq Hl Hd Hn Es El. destruct (new_list_ok A lim del Hl Hd) as (R & _).
  pose proof (srun_ok A K eqb key_of cmp true PO ops _ [] R) as H.
  assert (H0 : ordered A K key_of cmp true []) by constructor.
  specialize (H H0 Hn). rewrite Es in H. destruct H as (Ho & l' & El' & Rl).
  rewrite El in El'. injection El' as <-.
  assert (Hxx : cmp (key_of x) (key_of x) = 0).
  { destruct (Z_lt_le_dec (cmp (key_of x) (key_of x)) 0) as [H1|H1].
    - pose proof H1 as H2. apply (po_anti _ PO) in H2. lia.
    - destruct (Z.eq_dec (cmp (key_of x) (key_of x)) 0); auto.
      assert (0 < cmp (key_of x) (key_of x)) as H2 by lia. apply (po_anti _ PO) in H2. lia. }
  destruct (sindex_of_ok A K eqb key_of cmp true PO Heq l s x Rl Ho eq_refl Hxx) as (H1 & j & Ej).
  exists j. split; auto.
Qed.

Lemma strcmp_preorder : preorder strcmp.
Proof.
  split.
  - induction a as [|x a IH]; intros [|y b]; simpl; try lia.
    destruct (x <? y) eqn:E1; destruct (y <? x) eqn:E2; try apply IH; lia.
  - induction a as [|x a IH]; intros [|y b] [|z c]; simpl; try lia.
    destruct (x <? y) eqn:E1; destruct (y <? x) eqn:E2; destruct (y <? z) eqn:E3; destruct (z <? y) eqn:E4;
    destruct (x <? z) eqn:E5; destruct (z <? x) eqn:E6; try (intros; lia). apply IH.
Qed.
