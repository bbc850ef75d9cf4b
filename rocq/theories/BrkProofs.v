From Verif Require Import Base BrkModel BrkSpec.

Section P.
Variables (start size : Z).
Notation valid := (valid_address start size).
Notation step := (step start size).
Notation run := (run start size).

Lemma valid_iff a : valid a = true <-> start <= a < start + size.
Proof. unfold valid_address. lia. Qed.

Record Inv (s : st) : Prop := {
  i_flag : forall a, flags s a = true <-> valid a = true /\ exists b, In b (fl s) /\ baddr b = a;
  i_uniq : NoDup (map baddr (filter (fun b => valid (baddr b)) (fl s)));
  i_nodup : NoDup (map nr (fl s ++ el s));
  i_range : Forall (fun b => 1 <= nr b <= counter s) (fl s ++ el s);
  i_cnt : 0 <= counter s <= 2147483647
}.

Lemma Inv_init : Inv init_st.
Proof.
  constructor; cbn [flags fl el counter init_st app map filter].
  - intros a. split; [discriminate|]. intros (_ & b & [] & _).
  - constructor.
  - constructor.
  - constructor.
  - lia.
Qed.

(** -- lists -- *)
Lemma insert_last b l : Forall (fun x => nr x < nr b) l -> insert b l = l ++ [b].
Proof.
  induction 1 as [|x t Hx _ IH]; cbn [insert app]; auto.
  replace (nr x <? nr b) with true by lia. rewrite IH. reflexivity.
Qed.

Lemma index_if_spec p l i : index_if p l = Some i ->
  exists b, nth_error l i = Some b /\ p b = true.
Proof.
  revert i; induction l as [|x t IH]; cbn [index_if]; intros i H; [discriminate|].
  destruct (p x) eqn:E.
  - injection H as <-. exists x. auto.
  - destruct (index_if p t) as [j|]; [|discriminate]. injection H as <-.
    destruct (IH j eq_refl) as (b & Hb & Hp). exists b. auto.
Qed.

Lemma index_if_none p l : index_if p l = None -> forall b, In b l -> p b = false.
Proof.
  induction l as [|x t IH]; cbn [index_if]; intros H b [].
  - subst. destruct (p b); [discriminate|reflexivity].
  - destruct (p x); [discriminate|]. destruct (index_if p t); [discriminate|]. auto.
Qed.

Lemma index_if_some p l b : In b l -> p b = true -> exists i, index_if p l = Some i.
Proof.
  intros Hin Hp. destruct (index_if p l) eqn:E; [eauto|].
  rewrite (index_if_none _ _ E b Hin) in Hp. discriminate.
Qed.

Lemma filter_all {A} (p : A -> bool) l : (forall x, In x l -> p x = true) -> filter p l = l.
Proof.
  induction l as [|x t IH]; cbn [filter]; intros H; auto.
  rewrite H by (left; auto). f_equal. apply IH. intros; apply H; right; auto.
Qed.

Lemma without_absent n l : ~ In n (map nr l) -> without n l = l.
Proof.
  intros H. apply filter_all. intros x Hx.
  destruct (nr x =? n) eqn:E; auto. exfalso. apply H. apply Z.eqb_eq in E. subst.
  apply in_map. exact Hx.
Qed.

Lemma remove_is_without l i b : NoDup (map nr l) -> nth_error l i = Some b ->
  remove_nth l i = without (nr b) l.
Proof.
  revert i; induction l as [|x t IH]; intros i Hnd Hn; [destruct i; discriminate|].
  cbn [map] in Hnd. apply NoDup_cons_iff in Hnd. destruct Hnd as [Hx Hnd].
  destruct i as [|i].
  - cbn [nth_error] in Hn. injection Hn as ->. unfold remove_nth, without. cbn [firstn skipn app filter].
    rewrite Z.eqb_refl. cbn [negb]. symmetry. apply without_absent. exact Hx.
  - cbn [nth_error] in Hn. unfold remove_nth, without in *. cbn [firstn skipn app filter].
    assert (In (nr b) (map nr t)) by (apply in_map; eapply nth_error_In; eauto).
    replace (nr x =? nr b) with false.
    + cbn [negb]. f_equal. apply IH; auto.
    + symmetry. apply Z.eqb_neq. congruence.
Qed.

Lemma map_nr_without n l : map nr (without n l) = filter (fun x => negb (x =? n)) (map nr l).
Proof.
  induction l as [|x t IH]; cbn [without filter map]; auto.
  destruct (nr x =? n); cbn [negb map]; [apply IH | f_equal; apply IH].
Qed.

Lemma in_without b n l : In b (without n l) <-> In b l /\ nr b <> n.
Proof. unfold without. rewrite filter_In. split; intros [H1 H2]; (split; [exact H1 | lia]). Qed.

Lemma without_app n l m : without n (l ++ m) = without n l ++ without n m.
Proof. apply filter_app. Qed.

Lemma NoDup_without n l : NoDup (map nr l) -> NoDup (map nr (without n l)).
Proof. intros. rewrite map_nr_without. apply NoDup_filter. assumption. Qed.

Lemma NoDup_map_filter {A B} (f : A -> B) p l : NoDup (map f l) -> NoDup (map f (filter p l)).
Proof.
  induction l as [|x t IH]; cbn [map filter]; intros H; auto.
  apply NoDup_cons_iff in H. destruct H as [Hx H].
  destruct (p x); auto. cbn [map]. constructor; auto.
  intros Hin. apply Hx. rewrite in_map_iff in *. destruct Hin as (y & <- & Hy).
  exists y. split; auto. apply filter_In in Hy. tauto.
Qed.

Lemma filter_comm {A} (p q : A -> bool) l : filter p (filter q l) = filter q (filter p l).
Proof.
  induction l as [|x t IH]; cbn [filter]; auto.
  destruct (q x) eqn:Q, (p x) eqn:P; cbn [filter]; rewrite ?P, ?Q, ?IH; auto.
Qed.

Lemma nodup_app_l {A} (l m : list A) : NoDup (l ++ m) -> NoDup l.
Proof.
  induction l as [|x t IH]; cbn [app]; intros H; [constructor|].
  apply NoDup_cons_iff in H. destruct H. constructor; auto. intros X. apply H. apply in_or_app; auto.
Qed.
Lemma nodup_app_r {A} (l m : list A) : NoDup (l ++ m) -> NoDup m.
Proof. induction l; cbn [app]; intros H; auto. apply NoDup_cons_iff in H. tauto. Qed.

Lemma nodup_map_inj {A B} (f : A -> B) l x y : NoDup (map f l) -> In x l -> In y l -> f x = f y -> x = y.
Proof.
  induction l as [|h t IH]; cbn [map]; intros H Hx Hy E; [destruct Hx|].
  apply NoDup_cons_iff in H. destruct H as [Hh H].
  destruct Hx as [-> | Hx], Hy as [-> | Hy]; auto.
  - exfalso. apply Hh. rewrite E. apply in_map; auto.
  - exfalso. apply Hh. rewrite <- E. apply in_map; auto.
Qed.

Lemma nodup_snoc {A} (l : list A) x : NoDup l -> ~ In x l -> NoDup (l ++ [x]).
Proof.
  intros H Hx. apply NoDup_rev in H. rewrite <- (rev_involutive (l ++ [x])). apply NoDup_rev.
  rewrite rev_app_distr. cbn [rev app]. constructor; auto. rewrite <- in_rev. exact Hx.
Qed.

(** -- invariants -- *)
Lemma inv_uniq s b b' : Inv s -> In b (fl s) -> In b' (fl s) -> baddr b = baddr b' ->
  valid (baddr b) = true -> b = b'.
Proof.
  intros I Hb Hb' E V. apply (nodup_map_inj baddr (filter (fun b => valid (baddr b)) (fl s))); auto.
  - apply (i_uniq _ I).
  - apply filter_In. auto.
  - apply filter_In. rewrite <- E. auto.
Qed.

Lemma inv_nd_fl s : Inv s -> NoDup (map nr (fl s)).
Proof. intros I. pose proof (i_nodup _ I) as H. rewrite map_app in H. eapply nodup_app_l; eauto. Qed.
Lemma inv_nd_el s : Inv s -> NoDup (map nr (el s)).
Proof. intros I. pose proof (i_nodup _ I) as H. rewrite map_app in H. eapply nodup_app_r; eauto. Qed.

Lemma get_bp_at_ok s a : Inv s ->
  match get_bp_at start size s a with
  | Some i => exists b, nth_error (fl s) i = Some b /\ baddr b = a /\ valid a = true
  | None => valid a = true -> forall b, In b (fl s) -> baddr b <> a
  end.
Proof.
  intros I. unfold get_bp_at. destruct (valid a) eqn:V; cbn [andb]; [|intros X; discriminate X].
  destruct (flags s a) eqn:F.
  - apply (i_flag _ I) in F. destruct F as (_ & b & Hb & Ea).
    destruct (index_if_some (fun b => baddr b =? a) _ b Hb) as [i Ei]; [lia|].
    rewrite Ei. destruct (index_if_spec _ _ _ Ei) as (b' & Hn & Hp). exists b'.
    split; auto. split; auto. lia.
  - intros _ b Hb E. assert (flags s a = true) by (apply (i_flag _ I); eauto). congruence.
Qed.

Lemma del_bp_at_some s b : Inv s -> In b (fl s) -> valid (baddr b) = true ->
  let s' := del_bp_at start size s (baddr b) in
  fl s' = without (nr b) (fl s) /\ el s' = el s /\ counter s' = counter s /\
  (forall a, flags s' a = if a =? baddr b then false else flags s a).
Proof.
  intros I Hb V. cbv zeta. unfold del_bp_at.
  pose proof (get_bp_at_ok s (baddr b) I) as G.
  destruct (get_bp_at start size s (baddr b)) as [i|].
  - destruct G as (b' & Hn & Ea & _). rewrite Hn.
    assert (b' = b) as -> by (apply (inv_uniq s); auto; [eapply nth_error_In; eauto | congruence]).
    unfold set_flag. rewrite V. cbn [flags fl el counter].
    split; [apply remove_is_without; auto; apply inv_nd_fl; auto|]. auto.
  - exfalso. apply (G V b Hb). reflexivity.
Qed.

Lemma del_bp_at_none s a : Inv s -> (valid a = true -> forall b, In b (fl s) -> baddr b <> a) ->
  del_bp_at start size s a = s.
Proof.
  intros I H. unfold del_bp_at. pose proof (get_bp_at_ok s a I) as G.
  destruct (get_bp_at start size s a) as [i|]; auto.
  destruct G as (b & Hn & Ea & V). exfalso. apply (H V b); auto. eapply nth_error_In; eauto.
Qed.

Lemma Forall_without {P : brk -> Prop} n l : Forall P l -> Forall P (without n l).
Proof. rewrite !Forall_forall. intros H x Hx. apply in_without in Hx. apply H. tauto. Qed.

Lemma Inv_without_fl s b f : Inv s -> In b (fl s) -> valid (baddr b) = true ->
  (forall a, f a = if a =? baddr b then false else flags s a) ->
  Inv (mkSt f (without (nr b) (fl s)) (el s) (counter s)).
Proof.
  intros I Hb V Hf. constructor; cbn [flags fl el counter].
  - intros a. rewrite Hf. destruct (a =? baddr b) eqn:E.
    + split; [discriminate|]. intros (_ & b' & Hb' & Ea). apply in_without in Hb'.
      destruct Hb' as [Hb' Hn]. exfalso. apply Hn. f_equal. apply (inv_uniq s); auto; [lia|].
      replace (baddr b') with (baddr b) by lia. exact V.
    + rewrite (i_flag _ I). split; intros (Va & b' & Hb' & Ea); (split; [exact Va|]); exists b'.
      * split; auto. apply in_without. split; auto. intros X.
        assert (b' = b) by (apply (nodup_map_inj nr (fl s)); auto; apply inv_nd_fl; auto). subst. lia.
      * apply in_without in Hb'. tauto.
  - unfold without. rewrite filter_comm. apply NoDup_map_filter. apply (i_uniq _ I).
  - pose proof (i_nodup _ I) as H. apply (NoDup_without (nr b)) in H. rewrite without_app in H.
    rewrite (without_absent (nr b) (el s)) in H; [exact H|].
    pose proof (i_nodup _ I) as H2. rewrite map_app in H2. intros X.
    apply in_split in Hb. destruct Hb as (l1 & l2 & Hb). rewrite Hb in H2.
    rewrite map_app in H2. cbn [map] in H2. rewrite <- app_assoc in H2. cbn [app] in H2.
    apply NoDup_remove_2 in H2. apply H2. rewrite !in_app_iff. auto.
  - pose proof (i_range _ I) as H. apply Forall_app in H. apply Forall_app. split; [apply Forall_without|]; tauto.
  - apply (i_cnt _ I).
Qed.

Lemma st_eta s : mkSt (flags s) (fl s) (el s) (counter s) = s.
Proof. destruct s; reflexivity. Qed.

Lemma Inv_del_bp_at s a : Inv s -> Inv (del_bp_at start size s a).
Proof.
  intros I. destruct (get_bp_at start size s a) as [i|] eqn:E.
  - pose proof (get_bp_at_ok s a I) as G. rewrite E in G. destruct G as (b & Hn & Ea & V).
    apply nth_error_In in Hn. subst a.
    destruct (del_bp_at_some s b I Hn V) as (E1 & E2 & E3 & E4). cbv zeta in *.
    rewrite <- (st_eta (del_bp_at start size s (baddr b))). rewrite E1, E2, E3.
    apply Inv_without_fl; auto.
  - unfold del_bp_at. rewrite E. exact I.
Qed.

Lemma Inv_el s l' : Inv s -> (forall b, In b l' -> In b (el s)) -> NoDup (map nr (fl s ++ l')) ->
  Inv (mkSt (flags s) (fl s) l' (counter s)).
Proof.
  intros I H Hnd. destruct I as [I1 I2 I3 I4 I5]. constructor; cbn [flags fl el counter]; auto.
  apply Forall_app in I4. apply Forall_app. split; [tauto|]. destruct I4 as [_ I4].
  rewrite Forall_forall in *. auto.
Qed.

Lemma rm_brk_ok s n : Inv s -> (forall b, In b (fl s) -> nr b = n -> valid (baddr b) = true) ->
  let s' := fst (rm_brk start size s n) in
  fl s' = without n (fl s) /\ el s' = without n (el s) /\ counter s' = counter s /\
  (forall a, flags s' a = true <-> flags s a = true /\ forall b, In b (fl s) -> baddr b = a -> nr b <> n) /\
  (snd (rm_brk start size s n) = true <-> In n (map nr (fl s ++ el s))).
Proof.
  intros I Hv. cbv zeta. unfold rm_brk.
  assert (Dj : In n (map nr (fl s)) -> ~ In n (map nr (el s))).
  { intros Hf He. pose proof (i_nodup _ I) as H2. rewrite map_app in H2.
    apply in_split in Hf. destruct Hf as (l1 & l2 & Hf). rewrite Hf in H2.
    rewrite <- app_assoc in H2. cbn [app] in H2. apply NoDup_remove_2 in H2. apply H2. rewrite !in_app_iff. auto. }
  unfold get_bp_nr. destruct (index_if (fun b => nr b =? n) (fl s)) as [i|] eqn:E.
  - destruct (index_if_spec _ _ _ E) as (b & Hn & Hp). rewrite Hn. cbn [fst snd].
    pose proof (nth_error_In _ _ Hn) as Hin. assert (nr b = n) by lia. subst n.
    destruct (del_bp_at_some s b I Hin (Hv b Hin eq_refl)) as (E1 & E2 & E3 & E4). cbv zeta in *.
    rewrite E1, E2. assert (In (nr b) (map nr (fl s))) by (apply in_map; auto).
    split; auto. split; [symmetry; apply without_absent; auto|]. split; auto. split.
    + intros a. rewrite E4. destruct (a =? baddr b) eqn:Q.
      * split; [discriminate|]. intros (_ & H1). exfalso. apply (H1 b); auto. lia.
      * split; [|tauto]. intros H1. split; auto. intros b' Hb' Ea X.
        assert (b' = b) by (apply (nodup_map_inj nr (fl s)); auto; apply inv_nd_fl; auto). subst. lia.
    + split; auto. intros _. rewrite map_app, in_app_iff. auto.
  - assert (A : ~ In n (map nr (fl s))).
    { rewrite in_map_iff. intros (b & Eb & Hb). pose proof (index_if_none _ _ E b Hb). cbv beta in *. lia. }
    assert (FA : forall a, flags s a = true <-> flags s a = true /\ (forall b, In b (fl s) -> baddr b = a -> nr b <> n)).
    { intros a. split; [|tauto]. intros; split; auto. intros b Hb _ X. apply A. subst. apply in_map; auto. }
    destruct (index_if (fun b => nr b =? n) (el s)) as [i|] eqn:E2; cbn [fst snd flags fl el counter].
    + destruct (index_if_spec _ _ _ E2) as (b & Hn & Hp). assert (nr b = n) by lia. subst n.
      rewrite (without_absent (nr b) (fl s)) by exact A.
      split; auto. split; [apply remove_is_without; auto; apply inv_nd_el; auto|]. split; auto. split; auto.
      split; auto. intros _. rewrite map_app, in_app_iff. right. apply in_map. eapply nth_error_In; eauto.
    + assert (B : ~ In n (map nr (el s))).
      { rewrite in_map_iff. intros (b & Eb & Hb). pose proof (index_if_none _ _ E2 b Hb). cbv beta in *. lia. }
      rewrite !without_absent by auto. split; [auto|]. split; [auto|]. split; [auto|]. split; [exact FA|].
      rewrite map_app, in_app_iff. split; [intros X; discriminate X | tauto].
Qed.

Lemma Inv_rm_brk s n : Inv s -> Inv (fst (rm_brk start size s n)).
Proof.
  intros I. unfold rm_brk. destruct (get_bp_nr (fl s) n) as [i|].
  - destruct (nth_error (fl s) i) as [b|]; cbn [fst]; auto. apply Inv_del_bp_at; auto.
  - destruct (get_bp_nr (el s) n) as [i|] eqn:E; cbn [fst]; auto.
    destruct (index_if_spec _ _ _ E) as (b & Hn & _).
    rewrite (remove_is_without (el s) i b); auto; [|apply inv_nd_el; auto].
    apply Inv_el; auto.
    + intros x Hx. apply in_without in Hx. tauto.
    + pose proof (i_nodup _ I) as H. 
      assert (~ In (nr b) (map nr (fl s))).
      { pose proof (i_nodup _ I) as H2. rewrite map_app in H2. intros Hf. 
        apply in_split in Hf. destruct Hf as (l1 & l2 & Hf). rewrite Hf in H2.
        rewrite <- app_assoc in H2. cbn [app] in H2. apply NoDup_remove_2 in H2. apply H2.
        rewrite !in_app_iff. right. right. apply in_map. eapply nth_error_In; eauto. }
      rewrite <- (without_absent (nr b) (fl s)) by auto. rewrite <- without_app. apply NoDup_without. exact H.
Qed.

Lemma new_nr_ok s s1 n : Inv s -> make_new_brknr s = Ok (s1, n) ->
  Inv s1 /\ flags s1 = flags s /\ fl s1 = fl s /\ el s1 = el s /\ counter s1 = n /\ 1 <= n <= 2147483647 /\
  Forall (fun x => nr x < n) (fl s ++ el s).
Proof.
  intros I. unfold make_new_brknr. destruct I as [I1 I2 I3 I4 I5].
  assert (K : forall c, 0 <= c <= 2147483647 -> Forall (fun b => 1 <= nr b <= c) (fl s ++ el s) ->
              Inv (mkSt (flags s) (fl s) (el s) c)).
  { intros c Hc Hr. constructor; cbn [flags fl el counter]; auto. }
  destruct (counter s =? 0) eqn:E0.
  - intros H. injection H as <- <-. cbn [flags fl el counter].
    assert (Z0 : fl s ++ el s = []).
    { destruct (fl s ++ el s) as [|x l]; auto. apply Forall_inv in I4. lia. }
    split; [apply K; rewrite ?Z0; [lia|auto]|]. rewrite Z0. do 4 (split; [reflexivity|]). split; [lia|auto].
  - destruct (fl s) as [|x l] eqn:Ef; [destruct (el s) as [|y m] eqn:Ee|].
    + intros H. injection H as <- <-. cbn [flags fl el counter app].
      split; [apply K; cbn [app]; [lia|auto]|]. do 4 (split; [auto|]). split; [lia|auto].
    + destruct (counter s =? 2147483647) eqn:E1; [discriminate|].
      intros H. injection H as <- <-. cbn [flags fl el counter].
      split; [apply K; [lia|] | do 4 (split; [auto|]); split; [lia|]];
      (eapply Forall_impl; [|exact I4]; cbv beta; intros; lia).
    + destruct (counter s =? 2147483647) eqn:E1; [discriminate|].
      intros H. injection H as <- <-. cbn [flags fl el counter].
      split; [apply K; [lia|] | do 4 (split; [auto|]); split; [lia|]];
      (eapply Forall_impl; [|exact I4]; cbv beta; intros; lia).
Qed.

Lemma add_fetch_ok s a d hit s' : Inv s -> (valid a = true -> forall b, In b (fl s) -> baddr b <> a) ->
  add_fetch start size s a d hit = Ok s' ->
  Inv s' /\ (exists n, fl s' = fl s ++ [new_brk n a d hit]) /\ el s' = el s /\
  (forall x, flags s' x = if valid a && (x =? a) then true else flags s x).
Proof.
  intros I Hn. unfold add_fetch. destruct (make_new_brknr s) as [[s1 n]| |] eqn:E; cbn [rbind]; try discriminate.
  destruct (new_nr_ok s s1 n I E) as (I1 & Ef & El & Ee & Ec & Hr & Hlt). clear E.
  unfold add_item. rewrite El. destruct (Z.of_nat (length (fl s)) <? 8192); cbn [rbind]; try discriminate.
  apply Forall_app in Hlt. destruct Hlt as [Hl1 Hl2].
  rewrite insert_last by exact Hl1. intros H. injection H as <-.
  unfold set_flag. cbn [flags fl el counter]. rewrite Ef, Ee, Ec.
  assert (P : forall f, (forall x, f x = if valid a && (x =? a) then true else flags s x) ->
     Inv (mkSt f (fl s ++ [new_brk n a d hit]) (el s) n)).
  { intros f Hf. pose proof I as [J1 J2 J3 J4 J5]. constructor; cbn [flags fl el counter].
    - intros x. rewrite Hf. destruct (valid a) eqn:V; cbn [andb].
      + destruct (x =? a) eqn:Q.
        * assert (x = a) by lia. subst x. split; auto. intros _. split; auto. exists (new_brk n a d hit).
          split; [apply in_or_app; right; left; auto | reflexivity].
        * rewrite J1. split; intros (Vx & b & Hb & Eb); (split; [exact Vx|]); exists b; (split; [|exact Eb]).
          -- apply in_or_app; auto.
          -- apply in_app_or in Hb. destruct Hb as [Hb|[<- | []]]; auto. cbn [baddr new_brk] in Eb. lia.
      + rewrite J1. split; intros (Vx & b & Hb & Eb); (split; [exact Vx|]); exists b; (split; [|exact Eb]).
        * apply in_or_app; auto.
        * apply in_app_or in Hb. destruct Hb as [Hb|[<- | []]]; auto. cbn [baddr new_brk] in Eb. congruence.
    - rewrite filter_app, map_app. cbn [filter baddr new_brk]. destruct (valid a) eqn:V.
      + cbn [map baddr]. apply nodup_snoc; auto. rewrite in_map_iff. intros (b & Eb & Hb).
        apply filter_In in Hb. apply (Hn eq_refl b); tauto.
      + cbn [map]. rewrite app_nil_r. exact J2.
    - rewrite <- app_assoc. cbn [app]. rewrite map_app. cbn [map].
      apply NoDup_Add with (a := n) (l := map nr (fl s ++ el s)).
      + rewrite map_app. cbn [nr new_brk]. apply Add_app.
      + split; auto. rewrite in_map_iff. intros (b & Eb & Hb). 
        assert (nr b < n).
        { apply in_app_or in Hb. rewrite Forall_forall in Hl1, Hl2. destruct Hb; auto. }
        lia.
    - rewrite <- app_assoc. cbn [app]. apply Forall_app in J4. destruct J4 as [K1 K2]. apply Forall_app. split.
      + rewrite Forall_forall in *. intros b Hb. specialize (K1 b Hb). specialize (Hl1 b Hb). lia.
      + constructor; [cbn [nr new_brk]; lia|].
        rewrite Forall_forall in *. intros b Hb. specialize (K2 b Hb). specialize (Hl2 b Hb). lia.
    - lia. }
  destruct (valid a) eqn:V; cbn [flags fl el counter]; (split; [apply P; intros; cbn [andb]; reflexivity|]);
    (split; [exists n; reflexivity|]); auto.
Qed.

Lemma run_to_ok s a s' : Inv s -> run_to start size s a = Ok s' -> Inv s'.
Proof.
  intros I. unfold run_to. pose proof (get_bp_at_ok s a I) as G.
  destruct (get_bp_at start size s a).
  - intros H; injection H as <-; auto.
  - intros H. apply (add_fetch_ok s a true 1 s'); auto.
Qed.

Lemma bp_at_iff s a : Inv s -> (bp_at start size s a = true <-> valid a = true /\ exists b, In b (fl s) /\ baddr b = a).
Proof.
  intros I. unfold bp_at. rewrite andb_true_iff, (i_flag _ I). tauto.
Qed.

Lemma do_fetch_ok s a d hit s' : Inv s -> do_fetch start size s a d hit = Ok s' -> Inv s'.
Proof.
  intros I. unfold do_fetch. destruct (99999 <? hit); [intros H; injection H as <-; auto|].
  destruct (bp_at start size s a) eqn:B; [intros H; injection H as <-; auto|].
  intros H. apply (add_fetch_ok s a d hit s'); auto. intros V b Hb E.
  assert (bp_at start size s a = true) by (apply bp_at_iff; eauto). congruence.
Qed.

Lemma do_event_ok s a d hit s' : Inv s -> do_event s a d hit = Ok s' ->
  Inv s' /\ fl s' = fl s /\ exists n, el s' = el s ++ [new_brk n a d hit].
Proof.
  intros I. unfold do_event. destruct (make_new_brknr s) as [[s1 n]| |] eqn:E; cbn [rbind]; try discriminate.
  destruct (new_nr_ok s s1 n I E) as (I1 & Ef & El & Ee & Ec & Hr & Hlt). clear E.
  unfold add_item. destruct (Z.of_nat (length (el s1)) <? 8192); cbn [rbind]; try discriminate.
  pose proof Hlt as Hlt2. apply Forall_app in Hlt. destruct Hlt as [Hl1 Hl2].
  rewrite Ee, insert_last by exact Hl2. intros H. injection H as <-. cbn [flags fl el counter].
  split; [|split; [exact El | exists n; reflexivity]].
  destruct I as [J1 J2 J3 J4 J5]. constructor; cbn [flags fl el counter]; rewrite ?Ef, ?El; auto.
  - rewrite app_assoc, map_app. cbn [map nr new_brk]. apply nodup_snoc; auto.
    rewrite in_map_iff. intros (b & Eb & Hb). rewrite Forall_forall in Hlt2. specialize (Hlt2 b Hb). lia.
  - rewrite app_assoc. apply Forall_app. split.
    + rewrite Forall_forall in *. intros b Hb. specialize (J4 b Hb). specialize (Hlt2 b Hb). lia.
    + constructor; [cbn [nr new_brk]; lia | constructor].
  - lia.
Qed.

(** same objects up to the hit counter *)
Definition same_id (b b' : brk) := nr b = nr b' /\ baddr b = baddr b' /\ dyn b = dyn b' /\ bhit b = bhit b'.
Lemma do_hit_id b c : same_id b (fst (do_hit b c)).
Proof. unfold do_hit, same_id. destruct (bcnt b - 1 <=? 0); cbn [fst nr baddr dyn bhit]; auto. Qed.

Lemma upd_map {B} (f : brk -> B) l i b b' : nth_error l i = Some b -> f b = f b' -> map f (upd l i b') = map f l.
Proof.
  revert i; induction l as [|x t IH]; intros [|i] H E; cbn [upd map nth_error] in *; try discriminate.
  - injection H as ->. congruence.
  - f_equal. auto.
Qed.

Lemma forall_map_iff {B} (f : brk -> B) (P : B -> Prop) l : Forall (fun b => P (f b)) l <-> Forall P (map f l).
Proof. rewrite Forall_map. tauto. Qed.

Lemma ex_map (l l' : list brk) a : map baddr l = map baddr l' ->
  (exists b, In b l /\ baddr b = a) <-> (exists b, In b l' /\ baddr b = a).
Proof.
  intros E. assert (K : forall m : list brk, (exists b, In b m /\ baddr b = a) <-> In a (map baddr m)).
  { intros m. rewrite in_map_iff. split; intros (b & X & Y); exists b; auto. }
  rewrite !K, E. tauto.
Qed.

Lemma filter_map_addr l : map baddr (filter (fun b => valid (baddr b)) l) = filter valid (map baddr l).
Proof.
  induction l as [|x t IH]; cbn [filter map]; auto. destruct (valid (baddr x)); cbn [map]; rewrite IH; auto.
Qed.

Lemma Inv_same s fl' el' : Inv s -> map nr fl' = map nr (fl s) -> map baddr fl' = map baddr (fl s) ->
  map nr el' = map nr (el s) -> Inv (mkSt (flags s) fl' el' (counter s)).
Proof.
  intros [I1 I2 I3 I4 I5] E1 E2 E3. constructor; cbn [flags fl el counter].
  - intros a. rewrite I1. rewrite (ex_map fl' (fl s) a E2). tauto.
  - rewrite filter_map_addr in *. rewrite E2. exact I2.
  - rewrite map_app in *. rewrite E1, E3. exact I3.
  - rewrite (forall_map_iff nr (fun n => 1 <= n <= counter s)) in *. rewrite map_app in *. rewrite E1, E3. exact I4.
  - exact I5.
Qed.

Lemma do_brk_ok s pc c : Inv s -> Inv (fst (do_brk start size s pc c)).
Proof.
  intros I. unfold do_brk. destruct (get_bp_at start size s pc) as [i|]; auto.
  destruct (nth_error (fl s) i) as [b|] eqn:Hn; auto.
  destruct (do_hit_id b c) as (N1 & N2 & N3 & N4).
  destruct (do_hit b c) as [b' r] eqn:H. cbn [fst] in *.
  assert (J : Inv (mkSt (flags s) (upd (fl s) i b') (el s) (counter s))).
  { apply Inv_same; auto; eapply upd_map; eauto. }
  destruct r; cbn [fst]; auto. destruct (dyn b'); auto. apply Inv_del_bp_at; auto.
Qed.

Lemma event_hit_ok s n c : Inv s -> Inv (fst (event_hit s n c)).
Proof.
  intros I. unfold event_hit. destruct (get_bp_nr (el s) n) as [i|]; auto.
  destruct (nth_error (el s) i) as [b|] eqn:Hn; auto.
  destruct (do_hit_id b c) as (N1 & N2 & N3 & N4).
  destruct (do_hit b c) as [b' r] eqn:H. cbn [fst] in *.
  apply Inv_same; auto; eapply upd_map; eauto.
Qed.

Lemma remove_fetch_ok n : forall s s', Inv s -> remove_fetch start size n s = Some s' -> Inv s' /\ fl s' = [] /\ counter s' = counter s.
Proof.
  induction n as [|n IH]; intros s s' I; cbn [remove_fetch].
  - destruct (fl s) eqn:E; [|discriminate]. intros H; injection H as <-. auto.
  - destruct (fl s) as [|b t] eqn:E; [intros H; injection H as <-; auto|].
    intros H. destruct (IH _ _ (Inv_del_bp_at _ (baddr b) I) H) as (A & B & C). split; auto. split; auto.
    rewrite C. unfold del_bp_at. destruct (get_bp_at start size s (baddr b)); auto.
    destruct (nth_error (fl s) n0); auto. unfold set_flag. destruct (valid (baddr b0)); reflexivity.
Qed.

Lemma remove_all_ok n s s' : Inv s -> remove_all start size n s = Some s' ->
  Inv s' /\ fl s' = [] /\ el s' = [].
Proof.
  intros I. unfold remove_all. destruct (remove_fetch start size n s) as [s1|] eqn:E; [|discriminate].
  intros H; injection H as <-. cbn [flags fl el counter].
  destruct (remove_fetch_ok n s s1 I E) as (A & B & C). split; [|auto].
  apply Inv_el; auto. intros b []. rewrite B. constructor.
Qed.

Lemma step_inv s o s' r : Inv s -> step s o = Ok (s', r) -> Inv s'.
Proof.
  intros I. destruct o; cbn [BrkModel.step].
  - destruct (do_fetch start size s a d hit) as [x| |] eqn:E; cbn [rbind]; try discriminate.
    intros H; injection H as <- <-. eapply do_fetch_ok; eauto.
  - destruct (do_event s a d hit) as [x| |] eqn:E; cbn [rbind]; try discriminate.
    intros H; injection H as <- <-. eapply do_event_ok; eauto.
  - intros H; injection H as <- <-. destruct (bp_at start size s a); auto. apply Inv_del_bp_at; auto.
  - intros H; injection H as <- <-. apply Inv_rm_brk; auto.
  - destruct (remove_all start size (length (fl s)) s) as [x|] eqn:E; try discriminate.
    intros H; injection H as <- <-. eapply remove_all_ok; eauto.
  - destruct (run_to start size s a) as [x| |] eqn:E; cbn [rbind]; try discriminate.
    intros H; injection H as <- <-. eapply run_to_ok; eauto.
  - intros H. pose proof (do_brk_ok s pc c I) as D. injection H as H. rewrite H in D. exact D.
  - intros H. pose proof (event_hit_ok s n c I) as D. injection H as H. rewrite H in D. exact D.
Qed.

Lemma run_inv ops : forall s s' rs, Inv s -> run s ops = Ok (s', rs) -> Inv s'.
Proof.
  induction ops as [|o t IH]; intros s s' rs I; cbn [BrkModel.run].
  - intros H; injection H as <- <-; auto.
  - destruct (step s o) as [[s1 r]| |] eqn:E; cbn [rbind fst]; try discriminate.
    destruct (run s1 t) as [[s2 q]| |] eqn:E2; cbn [rbind fst]; try discriminate.
    intros H; injection H as <- <-. eapply IH; [|exact E2]. eapply step_inv; eauto.
Qed.
End P.
