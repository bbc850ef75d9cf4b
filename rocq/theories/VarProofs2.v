(** Proofs about the symbol table, part 2: histories. *)
From Verif Require Import Base ListModel ListSpec ListProofs SortedModel SortedSpec SortedProofs VarModel VarSpec VarProofs.

Definition shape (x : vars) (s1 s2 : list var) : Prop :=
  repr var (bn x) s1 /\ ordered var (list Z) vname strcmp false s1 /\
  repr var (ba x) s2 /\ ordered var var (fun v => v) icmp false s2.
Definition ids (s : list var) : Prop := forall a b, In a s -> In b s -> vid a = vid b -> a = b.
Definition one_auto (s : list var) : Prop :=
  forall v w, In v s -> In w s -> is_auto v = true -> is_auto w = true -> same_place v w = true -> v = w.
Definition inv (x : vars) (sp : list var) : Prop :=
  exists s1 s2, shape x s1 s2 /\ (forall v, In v s1 <-> In v sp) /\
    (forall v, In v s2 <-> In v sp /\ is_mem_var v = true) /\
    Forall wf_var sp /\ ids sp /\ one_auto sp /\ NoDup sp.

Lemma name_is_true n v : name_is n v = true <-> vname v = n.
Proof. unfold name_is. destruct (list_eq_dec Z.eq_dec (vname v) n); split; auto; discriminate. Qed.
Lemma name_is_false n v : name_is n v = false <-> vname v <> n.
Proof. unfold name_is. destruct (list_eq_dec Z.eq_dec (vname v) n); split; auto; try discriminate; tauto. Qed.

Lemma inv_len x sp s1 s2 : shape x s1 s2 -> (forall v, In v s1 <-> In v sp) -> NoDup sp -> length s1 = length sp.
Proof.
  intros (R1 & O1 & _) H N. pose proof (nordered_nodup _ O1).
  apply Nat.le_antisymm; apply NoDup_incl_length; auto; intros v Hv; apply H; auto.
Qed.
Lemma mem_wfm sp s2 : Forall wf_var sp -> (forall v, In v s2 <-> In v sp /\ is_mem_var v = true) -> Forall wfm s2.
Proof.
  intros W H. apply Forall_forall. intros v Hv. apply H in Hv. destruct Hv as [Hv M].
  rewrite Forall_forall in W. apply wf_wfm; auto.
Qed.

Lemma del_ok x sp n : inv x sp -> exists x',
  del x n = Ok (x', existsb (name_is n) sp) /\ inv x' (filter (fun w => negb (name_is n w)) sp) /\
  maxlen x' = maxlen x /\ known x' = (if existsb (name_is n) sp then false else known x).
Proof.
  intros (s1 & s2 & (R1 & O1 & R2 & O2) & M1 & M2 & W & U & A & N).
  unfold del. rewrite (search_ok var (list Z) same_ptr vname strcmp false strcmp_preorder _ _ n R1 O1). cbn [rbind].
  assert (EH : has_key var (list Z) vname strcmp s1 n = existsb (name_is n) sp).
  { apply eq_true_iff_eq. rewrite has_key_names, existsb_exists. split; intros (v & V1 & V2); exists v; split.
    - apply M1; auto. - apply name_is_true; auto. - apply M1; auto. - apply name_is_true; auto. }
  rewrite EH. destruct (existsb (name_is n) sp) eqn:E.
  - destruct (nless_hit s1 n O1 EH) as (v & V1 & V2). set (i := nless var (list Z) vname strcmp s1 n) in *.
    assert (Hi : (i < length s1)%nat) by (apply nth_error_Some; congruence).
    rewrite (at_ok var same_ptr _ s1 _ R1). unfold in_seq. replace ((0 <=? Z.of_nat i) && (Z.of_nat i <? Z.of_nat (length s1))) with true by lia.
    rewrite Nat2Z.id, V1. cbn [rbind].
    assert (Vin : In v s1) by (eapply nth_error_In; eauto). assert (Vsp : In v sp) by (apply M1; auto).
    pose proof R1 as (C1 & _).
    destruct (disconn_at_ok var (bn x) s1 (Z.of_nat i) R1 ltac:(lia)) as (n' & En & Rn & _). rewrite Nat2Z.id in Rn.
    assert (Only : forall w, In w sp -> (w <> v <-> vname w <> n)).
    { intros w Hw. split; [|intros H ->; auto]. intros H H'. apply H. apply (nordered_names s1); auto; [apply M1; auto|congruence]. }
    assert (P1 : forall w, In w (remove_at var s1 i) <-> In w (filter (fun w => negb (name_is n w)) sp)).
    { intros w. rewrite (in_remove_at s1 i v w (nordered_nodup _ O1) V1), filter_In, M1, negb_true_iff, name_is_false.
      split; intros [H1 H2]; split; auto; apply (Only w H1); auto. }
    assert (D : exists a s2', disconn var same_ptr (ba x) v = Ok a /\ repr var a s2' /\
                ordered var var (fun v => v) icmp false s2' /\
                (forall w, In w s2' <-> In w s2 /\ w <> v)).
    { destruct (is_mem_var v) eqn:Em.
      - apply (disconn_in (ba x) s2 v _ R2); auto.
        + apply aordered_nodup; auto.
        + intros a b Ha Hb. apply U; [apply M2 in Ha; tauto|apply M2 in Hb; tauto].
        + apply M2; auto.
      - exists (ba x), s2. split.
        + apply (disconn_notin (ba x) s2 v R2). intros a Ha E1. apply M2 in Ha. destruct Ha as [Ha1 Ha2].
          rewrite (U a v Ha1 Vsp E1) in Ha2. congruence.
        + split; [exact R2|]. split; [exact O2|]. intros w; split; [|tauto]. intros Hw. split; auto.
          intros ->. apply M2 in Hw. destruct Hw; congruence. }
    destruct D as (a & s2' & Ea & Ra & Oa & Pa). rewrite Ea. cbn [rbind]. rewrite En. cbn [rbind].
    eexists. split; [reflexivity|]. cbn [maxlen known]. split; [|auto].
    exists (remove_at var s1 i), s2'. cbn [bn ba]. split; [split; [auto|split; [apply sorted_remove; auto|auto]]|].
    split; [exact P1|]. split.
    { intros w. rewrite Pa, M2, filter_In, negb_true_iff, name_is_false. split.
      - intros [[H1 H2] H3]. split; [split; auto; apply (Only w H1); auto|auto].
      - intros [[H1 H2] H3]. split; [auto|apply (Only w H1); auto]. }
    split; [|split; [|split]].
    + apply Forall_forall. intros w Hw. apply filter_In in Hw. rewrite Forall_forall in W. apply W. tauto.
    + intros p q Hp Hq. apply filter_In in Hp, Hq. apply U; tauto.
    + intros p q Hp Hq. apply filter_In in Hp, Hq. apply A; tauto.
    + apply NoDup_filter. auto.
  - exists x. split; [reflexivity|]. split; [|auto].
    assert (F : filter (fun w => negb (name_is n w)) sp = sp).
    { assert (G : forall w, In w sp -> name_is n w = false).
      { intros w Hw. destruct (name_is n w) eqn:En; auto. rewrite <- E. symmetry. apply existsb_exists. eauto. }
      clear -G. induction sp as [|y t IH]; cbn; auto. rewrite (G y (or_introl eq_refl)). cbn. f_equal. apply IH.
      intros w Hw. apply G. right. auto. }
    rewrite F. exists s1, s2. unfold shape. tauto.
Qed.

Lemma place_cmp v item : wfm v -> wfm item ->
  Z.sgn (cmp_bits v (vu item) (vaddr item) (vbh item) (vbl item)) = strcmp (vpkey v) (vpkey item).
Proof. intros Hv [_ Hi]. apply cmp_bits_sgn; auto. Qed.

(** place comparison is monotone along the address list *)
Lemma place_mono s u a h l : ordered var var (fun v => v) icmp false s -> Forall wfm s -> wf_place u a h l ->
  mono (fun v => cmp_bits v u a h l) s.
Proof.
  intros O W P i j x y Hij Hx Hy.
  pose proof (ordered_nth var var same_ptr (fun v => v) icmp false s i j x y O Hij Hx Hy) as R. change (icmp x y < 0) in R.
  rewrite Forall_forall in W. pose proof (W x (nth_error_In _ _ Hx)) as Wx. pose proof (W y (nth_error_In _ _ Hy)) as Wy.
  rewrite (cmp_bits_sgn x u a h l Wx P), (cmp_bits_sgn y u a h l Wy P).
  unfold icmp, vkey in R. rewrite strcmp_app in R by reflexivity.
  set (k := pkey u a h l). destruct strcmp_preorder as [An T].
  assert (L : strcmp (vpkey x) (vpkey y) <= 0) by (destruct (strcmp (vpkey x) (vpkey y) =? 0) eqn:E; lia).
  destruct (strcmp_val (vpkey x) k) as [E|[E|E]]; rewrite E.
  - destruct (strcmp_val (vpkey y) k) as [F|[F|F]]; lia.
  - apply strcmp_eq in E. rewrite <- E. destruct (strcmp_val (vpkey y) (vpkey x)) as [F|[F|F]]; try lia.
    assert (0 < strcmp (vpkey x) (vpkey y)) by (apply An; lia). lia.
  - destruct (strcmp_val (vpkey y) k) as [F|[F|F]]; try lia.
    all: assert (Fy : strcmp (vpkey y) k <= 0) by lia; pose proof (T _ _ _ L Fy); lia.
Qed.
Lemma addr_mono s u a : ordered var var (fun v => v) icmp false s -> Forall wfm s -> 0 <= u < 1000000 -> 0 <= a < 2147483648 ->
  mono (fun v => cmp_addr v u a) s.
Proof.
  intros O W Hu Ha i j x y Hij Hx Hy.
  pose proof (ordered_nth var var same_ptr (fun v => v) icmp false s i j x y O Hij Hx Hy) as R. change (icmp x y < 0) in R.
  rewrite Forall_forall in W. pose proof (W x (nth_error_In _ _ Hx)) as Wx. pose proof (W y (nth_error_In _ _ Hy)) as Wy.
  rewrite (cmp_addr_sgn x u a Wx Hu Ha), (cmp_addr_sgn y u a Wy Hu Ha).
  unfold icmp, vkey, vpkey, pkey in R. cbn [app strcmp] in *.
  repeat match goal with H : context [if ?c then _ else _] |- _ => destruct c eqn:?; try (exfalso; lia)
                       | |- context [if ?c then _ else _] => destruct c eqn:?; try lia end.
Qed.

Lemma drop_auto_ok item : wfm item -> forall fuel x s1 s2 i, shape x s1 s2 -> Forall wfm s2 -> ids s1 ->
  (forall v, In v s2 -> In v s1) -> one_auto s2 -> (i <= length s2)%nat -> (length s2 - i <= fuel)%nat ->
  (forall j y, (j < i)%nat -> nth_error s2 j = Some y -> auto_at item y = false) ->
  (forall j k y z, (i <= j)%nat -> (j < k)%nat -> nth_error s2 j = Some y -> nth_error s2 k = Some z ->
     same_place y item = false -> same_place z item = false) ->
  exists x' s1' s2', drop_auto fuel item x (Z.of_nat i) = Ok x' /\ shape x' s1' s2' /\
    (forall w, In w s2' <-> In w s2 /\ auto_at item w = false) /\
    (forall w, In w s1' <-> In w s1 /\ (In w s2 -> auto_at item w = false)) /\
    maxlen x' = maxlen x /\
    (known x' = true -> known x = true /\
       forall v, In v s2 -> auto_at item v = true -> slen (vname v) = maxlen x -> maxlen x <= slen (vname item)) /\
    ((forall v, In v s2 -> auto_at item v = false) -> known x' = known x).
Proof.
  intros Wi. induction fuel as [|k IH]; intros x s1 s2 i Sh W U Sub A Hi Hf Hb Hc.
  - assert (Ei : i = length s2) by lia.
    assert (Nil : forall v, In v s2 -> auto_at item v = false).
    { intros v Hv. apply In_nth_error in Hv. destruct Hv as (j & Hj). apply (Hb j v); auto.
      rewrite Ei. apply nth_error_Some. congruence. }
    exists x, s1, s2. unfold drop_auto. pose proof Sh as (_ & _ & (C & _) & _).
    replace (Z.of_nat i <? count (ba x)) with false by lia. split; [reflexivity|]. split; [exact Sh|].
    split; [intros w; split; [auto|tauto]|]. split; [intros w; split; [auto|tauto]|]. split; [reflexivity|].
    split; [|auto]. intros Hk. split; auto. intros v Hv Ha. rewrite (Nil v Hv) in Ha. discriminate.
  - destruct (Nat.eq_dec i (length s2)) as [Ei|Ei].
    { assert (Nil : forall v, In v s2 -> auto_at item v = false).
      { intros v Hv. apply In_nth_error in Hv. destruct Hv as (j & Hj). apply (Hb j v); auto.
        rewrite Ei. apply nth_error_Some. congruence. }
      exists x, s1, s2. cbn [drop_auto]. pose proof Sh as (_ & _ & (C & _) & _).
      replace (Z.of_nat i <? count (ba x)) with false by lia. split; [reflexivity|]. split; [exact Sh|].
      split; [intros w; split; [auto|tauto]|]. split; [intros w; split; [auto|tauto]|]. split; [reflexivity|].
      split; [|auto]. intros Hk. split; auto. intros v Hv Ha. rewrite (Nil v Hv) in Ha. discriminate. }
    cbn [drop_auto]. pose proof Sh as (R1 & O1 & R2 & O2). pose proof R2 as (C & _).
    replace (Z.of_nat i <? count (ba x)) with true by lia.
    rewrite (at_ok var same_ptr _ s2 _ R2). unfold in_seq.
    replace ((0 <=? Z.of_nat i) && (Z.of_nat i <? Z.of_nat (length s2))) with true by lia. rewrite Nat2Z.id.
    destruct (nth_error s2 i) as [v|] eqn:Ev; [|apply nth_error_None in Ev; lia]. cbn [rbind].
    assert (Vin : In v s2) by (eapply nth_error_In; eauto).
    destruct (same_place v item) eqn:Ep; cbn [negb].
    + destruct (is_auto v) eqn:Ea.
      * destruct (disconn_at_ok var (ba x) s2 (Z.of_nat i) R2 ltac:(lia)) as (a' & Ed & Rd & _). rewrite Nat2Z.id in Rd.
        rewrite Ed. cbn [rbind].
        destruct (disconn_in (bn x) s1 v _ R1 (nordered_nodup _ O1) O1 U (Sub v Vin)) as (n' & s1' & En & Rn & On & Pn).
        rewrite En. cbn [rbind]. eexists _, s1', (remove_at var s2 i). split; [reflexivity|].
        assert (Only : forall w, In w s2 -> (w <> v <-> auto_at item w = false)).
        { intros w Hw. split.
          - intros H. destruct (auto_at item w) eqn:E; auto. exfalso. apply H. unfold auto_at in E. apply andb_true_iff in E. destruct E as [E1 E2].
            apply A; auto. rewrite Forall_forall in W. pose proof (W w Hw). pose proof (W v Vin).
            apply same_place_spec; auto. apply same_place_spec in E2, Ep; auto. congruence.
          - intros H ->. unfold auto_at in H. rewrite Ea, Ep in H. discriminate. }
        split. { split; [exact Rn|]. split; [exact On|]. split; [exact Rd|]. apply sorted_remove. exact O2. }
        split. { intros w. rewrite (in_remove_at s2 i v w (aordered_nodup _ O2) Ev). split; intros [H1 H2]; split; auto; apply (Only w H1); auto. }
        split. { intros w. rewrite Pn. split; intros [H1 H2]; split; auto.
                 - intros Hw. apply (Only w Hw). auto.
                 - intros ->. specialize (H2 Vin). apply (Only v Vin) in H2. auto. }
        cbn [maxlen known]. split; [reflexivity|]. split.
        -- destruct ((slen (vname v) =? maxlen x) && (slen (vname item) <? maxlen x)) eqn:E; [discriminate|].
           intros Hk. split; auto. intros w Hw Haw Hl. destruct (Z_lt_le_dec (slen (vname item)) (maxlen x)); auto. exfalso.
           assert (w = v).
           { unfold auto_at in Haw. apply andb_true_iff in Haw. destruct Haw as [E1 E2].
             apply A; auto. rewrite Forall_forall in W. pose proof (W w Hw). pose proof (W v Vin).
             apply same_place_spec; auto. apply same_place_spec in E2, Ep; auto. congruence. }
           subst. lia.
        -- intros H. specialize (H v Vin). unfold auto_at in H. rewrite Ea, Ep in H. discriminate.
      * replace (Z.of_nat i + 1) with (Z.of_nat (S i)) by lia. apply IH; auto; try lia.
        -- intros j y Hj Hy. destruct (Nat.eq_dec j i) as [->|]; [|apply (Hb j y); auto; lia].
           rewrite Hy in Ev. injection Ev as ->. unfold auto_at. rewrite Ea. reflexivity.
        -- intros j k' y z Hj. apply Hc. lia.
    + assert (Nil : forall w, In w s2 -> auto_at item w = false).
      { intros w Hw. apply In_nth_error in Hw. destruct Hw as (j & Hj).
        destruct (Nat.lt_trichotomy j i) as [L|[->|L]]; [apply (Hb j w); auto| |].
        - rewrite Hj in Ev. injection Ev as ->. unfold auto_at. rewrite Ep. apply andb_false_r.
        - unfold auto_at. rewrite (Hc i j v w (le_n _) L Ev Hj Ep). apply andb_false_r. }
      exists x, s1, s2. split; [reflexivity|]. split; [exact Sh|].
      split; [intros w; split; [auto|tauto]|]. split; [intros w; split; [auto|tauto]|]. split; [reflexivity|].
      split; [|auto]. intros Hk. split; auto. intros w Hw Ha. rewrite (Nil w Hw) in Ha. discriminate.
Qed.

Lemma vmem_vu v : is_mem_var v = true -> vmem v = Some (vu v).
Proof. unfold is_mem_var, vu. destruct (vmem v); [reflexivity|discriminate]. Qed.
Lemma same_place_mem v w : same_place v w = true -> is_mem_var v = true /\ is_mem_var w = true.
Proof. unfold same_place, is_mem_var. destruct (vmem v); destruct (vmem w); auto; discriminate. Qed.

Definition kept (item : var) (w : var) : bool := negb (name_is (vname item) w) && negb (auto_at item w).
Lemma filter_filter_kept item sp :
  filter (kept item) sp = filter (fun w => negb (auto_at item w)) (filter (fun w => negb (name_is (vname item) w)) sp).
Proof.
  unfold kept. induction sp as [|y s IH]; cbn; auto.
  destruct (name_is (vname item) y); cbn; auto. destruct (auto_at item y); cbn; rewrite IH; reflexivity.
Qed.

Lemma add_ok x sp item : inv x sp -> wf_var item -> (forall v, In v sp -> vid v <> vid item) ->
  Z.of_nat (length sp) < max_list_size ->
  exists x', add x item = Ok x' /\ inv x' (filter (kept item) sp ++ [item]) /\
    maxlen x' = (if existsb (name_is (vname item)) sp then maxlen x else Z.max (maxlen x) (slen (vname item))) /\
    (known x' = true -> (existsb (name_is (vname item)) sp = true \/ known x = true) /\
       forall v, In v sp -> auto_at item v = true -> vname v <> vname item ->
         slen (vname v) = maxlen x' -> maxlen x' <= slen (vname item)) /\
    ((forall v, In v sp -> auto_at item v = true -> vname v = vname item) ->
       known x' = (existsb (name_is (vname item)) sp || known x)).
Proof.
  intros Iv Wi Fr Hlen. unfold add.
  destruct (del_ok x sp (vname item) Iv) as (x1 & E1 & I1 & Mx & Kn). rewrite E1. cbn [rbind].
  set (found := existsb (name_is (vname item)) sp) in *.
  set (sp1 := filter (fun w => negb (name_is (vname item) w)) sp) in *.
  set (x2 := if found then mkVars (bn x1) (ba x1) (maxlen x1) true else _).
  assert (F2 : bn x2 = bn x1 /\ ba x2 = ba x1 /\
     maxlen x2 = (if found then maxlen x else Z.max (maxlen x) (slen (vname item))) /\ known x2 = (found || known x)).
  { unfold x2. destruct found; cbn [bn ba maxlen known]; rewrite Mx; repeat split; auto.
    destruct (maxlen x <? slen (vname item)) eqn:E; lia. }
  clearbody x2. destruct F2 as (B1 & B2 & Mx2 & Kn2).
  destruct I1 as (s1 & s2 & (R1 & O1 & R2 & O2) & M1 & M2 & W & U & A & N).
  assert (Sp1 : forall w, In w sp1 <-> In w sp /\ vname w <> vname item).
  { intros w. unfold sp1. rewrite filter_In, negb_true_iff, name_is_false. tauto. }
  assert (L1 : (length s1 <= length sp)%nat).
  { rewrite (inv_len x1 sp1 s1 s2); [|split; auto|auto|auto]. unfold sp1. clear. induction sp as [|y t IH]; cbn; [lia|].
    destruct (negb _); cbn; lia. }
  rewrite B1, B2. destruct (sadd_ok var (list Z) same_ptr vname strcmp false strcmp_preorder _ s1 item R1 O1) as (n' & En & Rn).
  { unfold max_list_size in *. lia. }
  rewrite En. cbn [rbind fst].
  assert (Hk : has_key var (list Z) vname strcmp s1 (vname item) = false).
  { destruct (has_key var (list Z) vname strcmp s1 (vname item)) eqn:E; auto. exfalso. apply has_key_names in E. destruct E as (v & V1 & V2).
    apply M1 in V1. apply Sp1 in V1. tauto. }
  rewrite Hk in Rn. cbn [negb orb] in Rn.
  set (s1' := insert_at var s1 (nless var (list Z) vname strcmp s1 (vname item)) item) in *.
  assert (O1' : ordered var (list Z) vname strcmp false s1').
  { apply (ordered_insert var (list Z) same_ptr vname strcmp false strcmp_preorder); auto. rewrite Hk. reflexivity. }
  assert (P1 : forall w, In w s1' <-> w = item \/ In w s1) by (intros w; apply in_insert_at).
  assert (Nin : ~ In item sp1). { intros H. apply Sp1 in H. tauto. }
  assert (U1 : ids s1').
  { intros a b Ha Hb E. apply P1 in Ha, Hb. destruct Ha as [->|Ha]; destruct Hb as [->|Hb]; auto.
    - apply M1, Sp1 in Hb. exfalso. apply (Fr b); [tauto|congruence].
    - apply M1, Sp1 in Ha. exfalso. apply (Fr a); [tauto|congruence].
    - apply U; auto; apply M1; auto. }
  pose proof (mem_wfm sp1 s2 W M2) as W2.
  (* the final membership, from the membership in the two lists *)
  assert (Fin : forall x' s1f s2f, shape x' s1f s2f ->
    (forall w, In w s1f <-> w = item \/ (In w sp1 /\ auto_at item w = false)) ->
    (forall w, In w s2f <-> (w = item /\ is_mem_var item = true) \/ (In w sp1 /\ is_mem_var w = true /\ auto_at item w = false)) ->
    inv x' (filter (kept item) sp ++ [item])).
  { intros x' s1f s2f Sh H1 H2.
    assert (Mem : forall w, In w (filter (kept item) sp ++ [item]) <-> w = item \/ (In w sp1 /\ auto_at item w = false)).
    { intros w. rewrite in_app_iff, filter_filter_kept. fold sp1. rewrite filter_In, negb_true_iff. cbn [In]. intuition congruence. }
    exists s1f, s2f. split; [exact Sh|]. split; [intros w; rewrite H1, Mem; tauto|].
    split; [intros w; rewrite H2, Mem; split; [intros [[-> H]|H]; intuition auto|intros [[->|H] H']; intuition auto]|].
    split. { apply Forall_forall. intros w Hw. apply Mem in Hw. destruct Hw as [->|[Hw _]]; auto. rewrite Forall_forall in W. auto. }
    split. { intros a b Ha Hb E. apply Mem in Ha, Hb. apply U1; auto; apply P1; rewrite M1; tauto. }
    split. { intros a b Ha Hb Aa Ab Sp. apply Mem in Ha, Hb. destruct Ha as [->|[Ha Ca]]; destruct Hb as [->|[Hb Cb]]; auto.
      - exfalso. unfold auto_at in Cb. rewrite Ab in Cb. cbn in Cb.
        destruct (same_place_mem _ _ Sp) as [Mi Mb]. rewrite Forall_forall in W.
        pose proof (wf_wfm _ Wi Mi) as Q1. pose proof (wf_wfm _ (W b Hb) Mb) as Q2.
        apply same_place_spec in Sp; auto. assert (same_place b item = true) by (apply same_place_spec; auto). congruence.
      - exfalso. unfold auto_at in Ca. rewrite Aa in Ca. cbn in Ca. congruence. }
    rewrite filter_filter_kept. fold sp1.
    assert (ND : NoDup (filter (fun w => negb (auto_at item w)) sp1)) by (apply NoDup_filter; auto).
    assert (NI : ~ In item (filter (fun w => negb (auto_at item w)) sp1)) by (rewrite filter_In; tauto).
    clear -ND NI. induction (filter (fun w => negb (auto_at item w)) sp1) as [|y t IH]; cbn.
    - constructor; [auto|constructor].
    - inversion ND; subst. constructor.
      + rewrite in_app_iff. cbn [In]. intros [H|[->|[]]]; [auto|]. apply NI. left. reflexivity.
      + apply IH; auto. intros H. apply NI. right. auto. }
  destruct (vmem item) as [u|] eqn:Eu.
  - assert (Mi : is_mem_var item = true) by (unfold is_mem_var; rewrite Eu; reflexivity).
    assert (u = vu item) by (unfold vu; rewrite Eu; reflexivity). subst u.
    pose proof (wf_wfm _ Wi Mi) as Wm. cbn [ba].
    set (f := fun v : var => cmp_bits v (vu item) (vaddr item) (vbh item) (vbl item)).
    assert (Mo : mono f s2) by (apply place_mono; auto; apply Wm).
    rewrite (asearch_ok f (ba x1) s2 R2 Mo). cbn [rbind fst snd].
    assert (Pl : forall v, In v s2 -> (same_place v item = true <-> f v = 0)).
    { intros v Hv. rewrite Forall_forall in W2. pose proof (W2 v Hv) as Wv. rewrite (same_place_spec v item Wv Wm).
      pose proof (place_cmp v item Wv Wm) as Pc. fold (f v) in Pc. rewrite <- strcmp_eq, <- Pc. lia. }
    set (x3 := mkVars n' (ba x1) (maxlen x2) (known x2)).
    assert (Drop : exists x4 s1f s2f,
       (if has0 f s2 then drop_auto (Z.to_nat (count (ba x1))) item x3 (Z.of_nat (nneg f s2)) else Ok x3) = Ok x4 /\
       shape x4 s1f s2f /\
       (forall w, In w s2f <-> In w s2 /\ auto_at item w = false) /\
       (forall w, In w s1f <-> In w s1' /\ (In w s2 -> auto_at item w = false)) /\
       maxlen x4 = maxlen x3 /\
       (known x4 = true -> known x3 = true /\
         forall v, In v s2 -> auto_at item v = true -> slen (vname v) = maxlen x3 -> maxlen x3 <= slen (vname item)) /\
       ((forall v, In v s2 -> auto_at item v = false) -> known x4 = known x3)).
    { assert (Sh3 : shape x3 s1' s2) by (split; [exact Rn|split; [exact O1'|split; auto]]).
      destruct (has0 f s2) eqn:E0.
      - assert (LN : (nneg f s2 <= length s2)%nat).
        { unfold nneg. clear. induction s2 as [|y t IH]; cbn; [lia|]. destruct (_ <? 0); cbn; lia. }
        pose proof R2 as (C2 & _).
        apply (drop_auto_ok item Wm (Z.to_nat (count (ba x1))) x3 s1' s2 (nneg f s2)); auto; try lia.
        + intros v Hv. apply P1. right. apply M1. apply M2 in Hv. tauto.
        + intros a b Ha Hb. apply A; [apply M2 in Ha; tauto|apply M2 in Hb; tauto].
        + intros j y Hj Hy. unfold auto_at. destruct (same_place y item) eqn:Es; [|apply andb_false_r]. exfalso.
          apply Pl in Es; [|eapply nth_error_In; eauto].
          destruct (nneg_zero f s2 Mo E0) as (z & Z1 & Z2).
          (* all elements before nneg are negative *)
          clear -Mo Hj Hy Es. revert j y Hj Hy Es. induction s2 as [|a t IH]; intros j y Hj Hy Es; [destruct j; discriminate|].
          unfold nneg in Hj. cbn [filter] in Hj. destruct (f a <? 0) eqn:Ea; cbn [length] in Hj.
          * destruct j as [|j]; [cbn in Hy; injection Hy as ->; lia|].
            apply (IH (fun p q u v Hpq => Mo (S p) (S q) u v (proj1 (Nat.succ_lt_mono p q) Hpq)) j y); auto. unfold nneg. lia.
          * assert (L : nneg f t = O).
            { apply nneg_split; [lia|intros; lia|]. intros q z _ Hq. pose proof (Mo O (S q) a z ltac:(lia) eq_refl Hq). lia. }
            unfold nneg in L. lia.
        + intros j k y z Hj Hk' Hy Hz Es. destruct (same_place z item) eqn:Ez; auto. exfalso.
          apply Pl in Ez; [|eapply nth_error_In; eauto].
          destruct (nneg_zero f s2 Mo E0) as (h & H1 & H2).
          assert (f y = 0).
          { pose proof (Mo j k y z Hk' Hy Hz). destruct (Nat.eq_dec j (nneg f s2)) as [->|].
            - rewrite H1 in Hy. injection Hy as ->. auto.
            - pose proof (Mo (nneg f s2) j h y ltac:(lia) H1 Hy). lia. }
          assert (same_place y item = true) by (apply Pl; auto; eapply nth_error_In; eauto). congruence.
      - assert (Nil : forall v, In v s2 -> auto_at item v = false).
        { intros v Hv. unfold auto_at. destruct (same_place v item) eqn:Es; [|apply andb_false_r]. exfalso.
          apply Pl in Es; auto. assert (has0 f s2 = true); [|congruence]. apply has0_iff.
          apply In_nth_error in Hv. destruct Hv as (i & Hi). eauto. }
        exists x3, s1', s2. split; [reflexivity|]. split; [exact Sh3|].
        split; [intros w; split; [auto|tauto]|]. split; [intros w; split; [auto|tauto]|]. split; [reflexivity|].
        split; [|auto]. intros Hk3. split; auto. intros v Hv Ha. rewrite (Nil v Hv) in Ha. discriminate. }
    destruct Drop as (x4 & s1f & s2f & E4 & (R1f & O1f & R2f & O2f) & D2 & D1 & Mx4 & Kn4 & Kn4').
    rewrite E4. cbn [rbind].
    assert (W2f : Forall wfm s2f).
    { apply Forall_forall. intros w Hw. apply D2 in Hw. rewrite Forall_forall in W2. apply W2. tauto. }
    rewrite (aadd_icmp (ba x4) s2f item R2f W2f Wm).
    assert (L2 : (length s2f <= length sp)%nat).
    { transitivity (length sp1).
      - apply NoDup_incl_length; [apply aordered_nodup; auto|]. intros w Hw. apply D2 in Hw. apply M2. tauto.
      - unfold sp1. clear. induction sp as [|y t IH]; cbn; [lia|]. destruct (negb _); cbn; lia. }
    destruct (sadd_ok var var same_ptr (fun v => v) icmp false icmp_preorder _ s2f item R2f O2f) as (a' & Ea & Ra).
    { unfold max_list_size in *. lia. }
    rewrite Ea. cbn [rbind fst].
    assert (Ha : has_key var var (fun v => v) icmp s2f item = false).
    { destruct (has_key var var (fun v => v) icmp s2f item) eqn:E; auto. exfalso. unfold has_key in E. apply existsb_exists in E.
      destruct E as (v & V1 & V2). assert (icmp v item = 0) by lia. unfold icmp in H. apply strcmp_eq in H.
      unfold vkey in H. unfold vpkey, pkey in H. cbn [app] in H.
      assert (vname v = vname item) by (injection H; auto). apply D2 in V1. destruct V1 as [V1 _]. apply M2 in V1. destruct V1 as [V1 _].
      apply Sp1 in V1. tauto. }
    rewrite Ha in Ra. cbn [negb orb] in Ra.
    eexists. split; [reflexivity|]. cbn [maxlen known]. split; [|split; [|split]].
    + apply (Fin _ s1f (insert_at var s2f (nless var var (fun v => v) icmp s2f item) item)).
      * split; [exact R1f|]. split; [exact O1f|]. split; [exact Ra|].
        apply (ordered_insert var var same_ptr (fun v => v) icmp false icmp_preorder); auto. rewrite Ha. reflexivity.
      * intros w. rewrite D1, P1, M1. split.
        -- intros [[->|H] H']; [tauto|]. right. split; auto. destruct (auto_at item w) eqn:E; auto.
           assert (is_mem_var w = true). { unfold auto_at in E. apply andb_true_iff in E. apply (same_place_mem w item). tauto. }
           apply H'; apply M2; auto.
        -- intros [->|[H H']]; split; auto. intros Hi. apply M2 in Hi. tauto.
      * intros w. rewrite in_insert_at, D2, M2. split; [intros [->|H]; intuition auto|intros [[-> H]|H]; intuition auto].
    + rewrite Mx4. exact Mx2.
    + intros Hk4. destruct (Kn4 Hk4) as [K1 K2]. split.
      * cbn [x3 known] in K1. rewrite Kn2 in K1. apply orb_true_iff in K1. tauto.
      * intros v Hv Hav Hnm. rewrite Mx4. apply K2; auto. apply M2. split; [apply Sp1; auto|].
        unfold auto_at in Hav. apply andb_true_iff in Hav. apply (same_place_mem v item). tauto.
    + intros H. rewrite Kn4'; [exact Kn2|]. intros v Hv. destruct (auto_at item v) eqn:E; auto. exfalso.
      apply M2 in Hv. destruct Hv as [Hv _]. apply Sp1 in Hv. destruct Hv as [Hv1 Hv2]. apply Hv2. apply H; auto.
  - assert (Mi : is_mem_var item = false) by (unfold is_mem_var; rewrite Eu; reflexivity).
    assert (NoA : forall w, auto_at item w = false).
    { intros w. destruct (auto_at item w) eqn:E; auto. unfold auto_at in E. apply andb_true_iff in E.
      destruct (same_place_mem w item ltac:(tauto)). congruence. }
    eexists. split; [reflexivity|]. cbn [maxlen known]. split; [|split; [|split]].
    + apply (Fin _ s1' s2).
      * split; [exact Rn|]. split; [exact O1'|]. split; auto.
      * intros w. rewrite P1, M1, NoA. tauto.
      * intros w. rewrite M2, NoA, Mi. split; [tauto|intros [[_ H]|H]; [discriminate|tauto]].
    + exact Mx2.
    + intros H. split; [rewrite Kn2 in H; apply orb_true_iff in H; tauto|]. intros v Hv Hav. rewrite NoA in Hav. discriminate.
    + intros _. exact Kn2.
Qed.

(** -- histories -- *)
Lemma new_inv : inv new_vars [].
Proof.
  destruct (new_list_ok var 10 10) as [R _]; [lia|lia|].
  exists [], []. split; [split; [exact R|split; [constructor|split; [exact R|constructor]]]|].
  cbn. repeat split; try tauto; try constructor; intros a; intros; contradiction.
Qed.

Lemma max_from_ok l s : repr var l s -> forall k i m, (i + k = length s)%nat ->
  max_from k l (Z.of_nat i) m = Ok (fold_left (fun m v => Z.max m (slen (vname v))) (skipn i s) m).
Proof.
  intros R. pose proof R as (C & _). induction k as [|k IH]; intros i m Hi; cbn [max_from].
  - rewrite skipn_all2 by lia. reflexivity.
  - rewrite (at_ok var same_ptr l s _ R). unfold in_seq. replace ((0 <=? Z.of_nat i) && (Z.of_nat i <? Z.of_nat (length s))) with true by lia.
    rewrite Nat2Z.id. destruct (nth_error s i) as [v|] eqn:E; [|apply nth_error_None in E; lia]. cbn [rbind].
    replace (Z.of_nat i + 1) with (Z.of_nat (S i)) by lia. rewrite IH by lia.
    replace (if m <? slen (vname v) then slen (vname v) else m) with (Z.max m (slen (vname v))) by (destruct (m <? slen (vname v)) eqn:L; lia).
    f_equal. clear -E. revert i E. induction s as [|y s IH]; intros [|i] E; try discriminate; cbn in *.
    + injection E as ->. reflexivity.
    + apply IH. exact E.
Qed.
Lemma fold_max s m : 0 <= m -> fold_left (fun m v => Z.max m (slen (vname v))) s m = Z.max m (longest s).
Proof.
  revert m; induction s as [|y s IH]; intros m Hm; cbn [fold_left longest fold_right]; [lia|].
  fold (longest s). rewrite IH by (unfold slen; lia). lia.
Qed.
Lemma longest_ge s v : In v s -> slen (vname v) <= longest s.
Proof.
  induction s as [|y s IH]; [intros []|]. intros H. cbn [longest fold_right]. fold (longest s).
  destruct H as [->|H]; [lia|]. pose proof (IH H). lia.
Qed.
Lemma longest_nonneg s : 0 <= longest s.
Proof. induction s as [|y s IH]; [cbn; lia|]. cbn [longest fold_right]. fold (longest s). lia. Qed.
Lemma longest_in s : longest s = 0 \/ exists v, In v s /\ slen (vname v) = longest s.
Proof.
  induction s as [|y s IH]; [left; reflexivity|]. cbn [longest fold_right]. fold (longest s).
  destruct (Z_le_gt_dec (longest s) (slen (vname y))).
  - right. exists y. split; [left; auto|]. lia.
  - destruct IH as [H|(v & V1 & V2)]; [unfold slen in *; lia|]. right. exists v. split; [right; auto|]. lia.
Qed.
Lemma longest_ext s t : (forall v, In v s -> In v t) -> longest s <= longest t.
Proof.
  intros H. destruct (longest_in s) as [E|(v & V1 & V2)].
  - rewrite E. apply longest_nonneg.
  - rewrite <- V2. apply longest_ge. auto.
Qed.

(** deletions invalidate the cached length, a query validates it; a replacing
    addition must not come while it is invalid *)
Fixpoint careful (clean : bool) (s : list var) (ops : list vop) : bool :=
  match ops with
  | [] => true
  | o :: t =>
    match o with
    | VDel n => careful (if existsb (name_is n) s then false else clean) (vspec_step s o) t
    | VMax => careful true s t
    | VAdd v => (clean || negb (existsb (name_is (vname v)) s)) &&
                careful (clean && negb (existsb (auto_at v) s)) (vspec_step s o) t
    end
  end.

Definition fresh_from (sp : list var) (ops : list vop) : Prop :=
  Forall wf_var (added ops) /\ NoDup (map vid (sp ++ added ops)).

Definition minv (x : vars) (sp : list var) : Prop := longest sp <= maxlen x.
Definition cinv (x : vars) (sp : list var) (clean : bool) : Prop :=
  (known x = true -> maxlen x = longest sp) /\ (clean = true -> known x = true).

Lemma get_max_ok x sp : inv x sp -> minv x sp -> exists x' m, get_max_name_len x = Ok (x', m) /\
  inv x' sp /\ minv x' sp /\ known x' = true /\ m = maxlen x' /\ longest sp <= m /\
  (known x = false -> m = longest sp) /\ (known x = true -> m = maxlen x).
Proof.
  intros Iv Mi. unfold get_max_name_len. destruct (known x) eqn:K.
  - exists x, (maxlen x). repeat split; auto. discriminate.
  - pose proof Iv as (s1 & s2 & Sh & M1 & M2 & Rest). pose proof Sh as (R1 & O1 & R2 & O2).
    pose proof R1 as (C & _). pose proof (max_from_ok (bn x) s1 R1 (Z.to_nat (count (bn x))) 0 0 ltac:(lia)) as F.
    cbn [Z.of_nat skipn] in F. rewrite F, (fold_max s1 0 ltac:(lia)). cbn [rbind].
    assert (L : longest s1 = longest sp). { apply Z.le_antisymm; apply longest_ext; intros v; apply M1. }
    pose proof (longest_nonneg sp). rewrite L. replace (Z.max 0 (longest sp)) with (longest sp) by lia.
    eexists _, _. split; [reflexivity|]. cbn [known maxlen]. split.
    + exists s1, s2. split; [exact Sh|]. auto.
    + unfold minv. cbn [maxlen]. repeat split; auto; try lia; discriminate.
Qed.

Lemma step_ok x sp o t : inv x sp -> minv x sp -> fresh_from sp (o :: t) ->
  Z.of_nat (length sp + length (added (o :: t))) <= max_list_size ->
  exists x', vstep x o = Ok x' /\ inv x' (vspec_step sp o) /\ minv x' (vspec_step sp o) /\
    fresh_from (vspec_step sp o) t /\ Z.of_nat (length (vspec_step sp o) + length (added t)) <= max_list_size /\
    (forall clean, cinv x sp clean -> careful clean sp (o :: t) = true ->
       exists clean', cinv x' (vspec_step sp o) clean' /\ careful clean' (vspec_step sp o) t = true).
Proof.
  intros Iv Mi [Fw Fn] Hl. destruct o as [v|n|]; cbn [vstep].
  - cbn [added flat_map app] in *. fold (added t) in *.
    assert (Fid : forall w, In w sp -> vid w <> vid v).
    { intros w Hw E. rewrite map_app in Fn. cbn [map app] in Fn. apply NoDup_remove_2 in Fn. apply Fn.
      apply in_or_app. left. rewrite <- E. apply in_map. exact Hw. }
    destruct (add_ok x sp v Iv (Forall_inv Fw) Fid) as (x' & E & I' & Mx & Kn & Kn').
    { cbn [length] in Hl. lia. }
    assert (Es : vspec_step sp (VAdd v) = filter (kept v) sp ++ [v]) by reflexivity.
    exists x'. split; [exact E|]. rewrite Es. split; [exact I'|].
    assert (Flen : (length (filter (kept v) sp) <= length sp)%nat).
    { clear. induction sp as [|y s IH]; cbn; [lia|]. destruct (kept v y); cbn; lia. }
    assert (Lo : longest (filter (kept v) sp ++ [v]) <= Z.max (longest sp) (slen (vname v))).
    { destruct (longest_in (filter (kept v) sp ++ [v])) as [H|(w & W1 & W2)].
      - rewrite H. pose proof (longest_nonneg sp). lia.
      - rewrite <- W2. apply in_app_iff in W1. destruct W1 as [W1|[->|[]]]; [|lia].
        apply filter_In in W1. pose proof (longest_ge sp w ltac:(tauto)). lia. }
    assert (Fe : existsb (name_is (vname v)) sp = true -> slen (vname v) <= longest sp).
    { intros H. apply existsb_exists in H. destruct H as (w & W1 & W2). apply name_is_true in W2. rewrite <- W2. apply longest_ge. auto. }
    split. { unfold minv in *. rewrite Mx. destruct (existsb (name_is (vname v)) sp); [specialize (Fe eq_refl)|]; lia. }
    split. { split; [exact (Forall_inv_tail Fw)|]. clear -Fn.
      assert (G : forall f : var -> bool, NoDup (map vid (sp ++ v :: added t)) -> NoDup (map vid ((filter f sp ++ [v]) ++ added t))).
      { intros f. rewrite <- app_assoc. cbn [app]. induction sp as [|y s IH]; cbn [map app filter]; intros H; auto.
        inversion H as [|? ? H1 H2]; subst. destruct (f y); auto. cbn [map app]. constructor; auto.
        rewrite map_app, in_app_iff in *. intros [C|C]; apply H1; [left|right]; auto.
        rewrite in_map_iff in *. destruct C as (w & W1 & W2). apply filter_In in W2. exists w. tauto. }
      apply G. exact Fn. }
    split. { rewrite app_length. cbn [length] in *. lia. }
    intros clean [C1 C2] Ca. cbn [careful] in Ca. apply andb_true_iff in Ca. destruct Ca as [Ca1 Ca2].
    eexists. split; [|exact Ca2].
    split.
    + intros Hk. destruct (Kn Hk) as [Hk1 Hk2].
      assert (KX : known x = true).
      { destruct Hk1 as [Hf|]; auto. rewrite Hf in Ca1. cbn in Ca1. rewrite orb_false_r in Ca1. auto. }
      specialize (C1 KX). rewrite Mx in *.
      assert (Hin : slen (vname v) <= longest (filter (kept v) sp ++ [v])) by (apply longest_ge, in_or_app; right; left; auto).
      assert (Main : Z.max (longest sp) (slen (vname v)) <= longest (filter (kept v) sp ++ [v])).
      { destruct (longest_in sp) as [H|(w & W1 & W2)].
        - rewrite H. pose proof (longest_nonneg (filter (kept v) sp ++ [v])). lia.
        - destruct (kept v w) eqn:Ek.
          + pose proof (longest_ge (filter (kept v) sp ++ [v]) w). 
            assert (In w (filter (kept v) sp ++ [v])) by (apply in_or_app; left; apply filter_In; auto). specialize (H H0). lia.
          + unfold kept in Ek. destruct (name_is (vname v) w) eqn:En.
            * apply name_is_true in En. rewrite En in W2. lia.
            * cbn in Ek. apply negb_false_iff in Ek. apply name_is_false in En.
              destruct (Z_le_gt_dec (longest sp) (slen (vname v))); [lia|].
              pose proof (Hk2 w W1 Ek En) as H2. rewrite C1 in H2.
              destruct (existsb (name_is (vname v)) sp); [lia|]. lia. }
      destruct (existsb (name_is (vname v)) sp); [specialize (Fe eq_refl)|]; lia.
    + intros Hc. apply andb_true_iff in Hc. destruct Hc as [Hc1 Hc2]. apply negb_true_iff in Hc2.
      rewrite Kn'; [rewrite (C2 Hc1); apply orb_true_r|].
      intros w Hw Ha. exfalso. assert (existsb (auto_at v) sp = true); [|congruence]. apply existsb_exists. eauto.
  - destruct (del_ok x sp n Iv) as (x' & E & I' & Mx & Kn). rewrite E. cbn [rbind fst].
    exists x'. split; [reflexivity|]. cbn [vspec_step]. split; [exact I'|].
    assert (Sub : longest (filter (fun w => negb (name_is n w)) sp) <= longest sp).
    { apply longest_ext. intros v Hv. apply filter_In in Hv. tauto. }
    split; [unfold minv in *; rewrite Mx; lia|].
    split. { split; [exact Fw|]. cbn [added flat_map app] in Fn. fold (added t) in Fn. clear -Fn.
      induction sp as [|y s IH]; cbn [map app filter] in *; auto.
      inversion Fn as [|? ? H1 H2]; subst. destruct (negb (name_is n y)); auto. cbn [map app]. constructor; auto.
      rewrite map_app, in_app_iff in *. intros [C|C]; apply H1; [left|right]; auto.
      rewrite in_map_iff in *. destruct C as (w & W1 & W2). apply filter_In in W2. exists w. tauto. }
    split. { assert (length (filter (fun w => negb (name_is n w)) sp) <= length sp)%nat.
      { clear. induction sp as [|y s IH]; cbn; [lia|]. destruct (negb _); cbn; lia. }
      cbn [added flat_map app] in Hl. fold (added t) in Hl. lia. }
    intros clean [C1 C2] Ca. cbn [careful] in Ca. eexists. split; [|exact Ca].
    destruct (existsb (name_is n) sp) eqn:Ef.
    + split; [intros Hk; congruence|discriminate].
    + assert (F : filter (fun w => negb (name_is n w)) sp = sp).
      { assert (G : forall w, In w sp -> name_is n w = false).
        { intros w Hw. destruct (name_is n w) eqn:En; auto. rewrite <- Ef. symmetry. apply existsb_exists. eauto. }
        clear -G. induction sp as [|y t IH]; cbn; auto. rewrite (G y (or_introl eq_refl)). cbn. f_equal. apply IH.
        intros w Hw. apply G. right. auto. }
      rewrite F. split; rewrite Kn, ?Mx; auto.
  - destruct (get_max_ok x sp Iv Mi) as (x' & m & E & I' & Mi' & K & Em & _ & G1 & G2). rewrite E. cbn [rbind fst].
    exists x'. split; [reflexivity|]. cbn [vspec_step]. split; [exact I'|]. split; [exact Mi'|].
    split; [split; [exact Fw|exact Fn]|]. split; [exact Hl|].
    intros clean [C1 C2] Ca. cbn [careful] in Ca. exists true. split; [|exact Ca]. split; auto.
    intros _. destruct (known x) eqn:Kx; [rewrite <- Em, G2 by auto; auto|rewrite <- Em; auto].
Qed.

Lemma run_ok : forall ops x sp, inv x sp -> minv x sp -> fresh_from sp ops ->
  Z.of_nat (length sp + length (added ops)) <= max_list_size ->
  exists x', vrun x ops = Ok x' /\ inv x' (fold_left vspec_step ops sp) /\ minv x' (fold_left vspec_step ops sp) /\
    (forall clean, cinv x sp clean -> careful clean sp ops = true ->
       exists clean', cinv x' (fold_left vspec_step ops sp) clean').
Proof.
  induction ops as [|o t IH]; intros x sp Iv Mi Fr Hl; cbn [vrun fold_left].
  - exists x. repeat split; try apply Mi; auto. intros clean Hc _. eauto.
  - destruct (step_ok x sp o t Iv Mi Fr Hl) as (x1 & E & I1 & M1 & F1 & L1 & K1). rewrite E. cbn [rbind].
    destruct (IH x1 _ I1 M1 F1 L1) as (x' & E' & I' & M' & K'). exists x'. repeat split; auto.
    intros clean Hc Ca. destruct (K1 clean Hc Ca) as (c' & Hc' & Ca'). apply (K' c'); auto.
Qed.

Lemma lookup_in sp n : (forall v w, In v sp -> In w sp -> vname v = vname w -> v = w) ->
  forall v, lookup sp n = Some v <-> In v sp /\ vname v = n.
Proof.
  intros Hu v. unfold lookup. split.
  - intros H. apply find_some in H. rewrite name_is_true in H. exact H.
  - intros [H1 H2]. destruct (find (name_is n) sp) as [w|] eqn:E.
    + apply find_some in E. rewrite name_is_true in E. f_equal. apply Hu; try tauto. destruct E; congruence.
    + pose proof (find_none _ _ E v H1) as C. apply name_is_false in C. contradiction.
Qed.
Lemma inv_names x sp : inv x sp -> forall v w, In v sp -> In w sp -> vname v = vname w -> v = w.
Proof.
  intros (s1 & s2 & (R1 & O1 & _) & M1 & _) v w Hv Hw. apply (nordered_names s1); auto; apply M1; auto.
Qed.
Lemma get_var_ok x sp n : inv x sp -> get_var x n = Ok (lookup sp n).
Proof.
  intros Iv. pose proof (inv_names x sp Iv) as Hu. destruct Iv as (s1 & s2 & (R1 & O1 & R2 & O2) & M1 & _).
  unfold get_var. rewrite (search_ok var (list Z) same_ptr vname strcmp false strcmp_preorder _ _ n R1 O1). cbn [rbind fst snd].
  destruct (has_key var (list Z) vname strcmp s1 n) eqn:E.
  - destruct (nless_hit s1 n O1 E) as (v & V1 & V2). set (i := nless var (list Z) vname strcmp s1 n) in *.
    assert (Hi : (i < length s1)%nat) by (apply nth_error_Some; congruence).
    rewrite (at_ok var same_ptr _ s1 _ R1). unfold in_seq. replace ((0 <=? Z.of_nat i) && (Z.of_nat i <? Z.of_nat (length s1))) with true by lia.
    rewrite Nat2Z.id, V1. cbn [rbind]. f_equal. symmetry. apply (lookup_in sp n Hu). split; auto. apply M1. eapply nth_error_In; eauto.
  - f_equal. destruct (lookup sp n) as [v|] eqn:El; auto. exfalso. apply (lookup_in sp n Hu) in El.
    assert (has_key var (list Z) vname strcmp s1 n = true); [|congruence]. apply has_key_names. exists v. rewrite M1. tauto.
Qed.

(** the first element of a class in the ordered list *)
Lemma first_of (f : var -> Z) lst s2 : repr var lst s2 -> mono f s2 ->
  ordered var var (fun v => v) icmp false s2 ->
  exists r, (r0 <- asearch f lst ;; if fst r0 then v <- at_ _ lst (snd r0) ;; Ok (Some v) else Ok None) = Ok r /\
  match r with
  | None => forall v, In v s2 -> f v <> 0
  | Some v => In v s2 /\ f v = 0 /\ forall w, In w s2 -> f w = 0 -> icmp v w <= 0
  end.
Proof.
  intros R2 Mo O2. rewrite (asearch_ok f lst s2 R2 Mo). cbn [rbind fst snd].
  destruct (has0 f s2) eqn:E.
  - destruct (nneg_zero f s2 Mo E) as (v & V1 & V2).
    assert (Hi : (nneg f s2 < length s2)%nat) by (apply nth_error_Some; congruence).
    rewrite (at_ok var same_ptr _ s2 _ R2). unfold in_seq.
    replace ((0 <=? Z.of_nat (nneg f s2)) && (Z.of_nat (nneg f s2) <? Z.of_nat (length s2))) with true by lia.
    rewrite Nat2Z.id, V1. cbn [rbind]. exists (Some v). split; [reflexivity|]. split; [eapply nth_error_In; eauto|]. split; auto.
    intros w Hw Hz. apply In_nth_error in Hw. destruct Hw as (j & Hj).
    assert (L : (nneg f s2 <= j)%nat).
    { destruct (Nat.le_gt_cases (nneg f s2) j); auto. exfalso. clear -Mo H Hj Hz.
      revert j H Hj. induction s2 as [|a t IH]; intros j H Hj; [destruct j; discriminate|].
      unfold nneg in H. cbn [filter] in H. destruct (f a <? 0) eqn:Ea; cbn [length] in H.
      - destruct j as [|j]; [cbn in Hj; injection Hj as ->; lia|].
        apply (IH (fun p q u v Hpq => Mo (S p) (S q) u v (proj1 (Nat.succ_lt_mono p q) Hpq)) j); auto. unfold nneg. lia.
      - assert (L : nneg f t = O).
        { apply nneg_split; [lia|intros; lia|]. intros q z _ Hq. pose proof (Mo O (S q) a z ltac:(lia) eq_refl Hq). lia. }
        unfold nneg in L. lia. }
    destruct (Nat.eq_dec (nneg f s2) j) as [<-|].
    + rewrite V1 in Hj. injection Hj as <-. unfold icmp. rewrite strcmp_refl. lia.
    + pose proof (ordered_nth var var same_ptr (fun v => v) icmp false s2 (nneg f s2) j v w O2 ltac:(lia) V1 Hj) as R. change (icmp v w < 0) in R. lia.
  - exists None. split; [reflexivity|]. intros v Hv Hz. assert (has0 f s2 = true); [|congruence].
    apply has0_iff. apply In_nth_error in Hv. destruct Hv as (i & Hi). eauto.
Qed.
