From Verif Require Import Base IrqModel IrqSpec.

Lemma wr_same r c v : wr r c v c = u8 v.
Proof. unfold wr. rewrite Z.eqb_refl. reflexivity. Qed.
Lemma wr_other r c v x : x <> c -> wr r c v x = r x.
Proof. unfold wr. intros. replace (x =? c) with false by lia. reflexivity. Qed.

Lemma u8_land v m : 0 <= m < 256 -> Z.land (u8 v) m = Z.land v m.
Proof.
  intros Hm. unfold u8. change 256 with (2^8). rewrite <- Z.land_ones by lia.
  rewrite <- Z.land_assoc. f_equal. rewrite Z.land_comm. rewrite Z.land_ones by lia. apply Z.mod_small. lia.
Qed.

Lemma land_lor_same v m : Z.land (Z.lor v m) m = m.
Proof. apply Z.bits_inj'. intros n Hn. rewrite Z.land_spec, Z.lor_spec. destruct (Z.testbit v n), (Z.testbit m n); reflexivity. Qed.
Lemma land_lnot_same v m : Z.land (Z.land v (Z.lnot m)) m = 0.
Proof. apply Z.bits_inj'. intros n Hn. rewrite !Z.land_spec, Z.lnot_spec, Z.bits_0 by lia. destruct (Z.testbit v n), (Z.testbit m n); reflexivity. Qed.

Lemma nested_inv l t : nested (l :: t) -> 0 <= l -> t <> [] /\ nested t /\ hd 0 t < l.
Proof. destruct t as [|m t]; cbn [nested hd]; intros H Hl; [lia|]. split; [discriminate|]. tauto. Qed.

Lemma nested_main l t : nested (l :: t) -> -1 <= l.
Proof.
  revert l. induction t as [|m t IH]; intros l H; cbn [nested] in H; [lia|].
  destruct H as [H1 H2]. specialize (IH m H2). lia.
Qed.

Lemma nested_unwind lv : nested lv -> nested (unwind lv) /\ unwind lv = [-1].
Proof.
  induction lv as [|l t IH]; intros H; [destruct H|]. cbn [unwind].
  destruct (0 <=? l) eqn:E.
  - destruct (nested_inv _ _ H ltac:(lia)) as (_ & H1 & _). auto.
  - destruct t as [|m t]; [cbn [nested] in H; subst; cbn; auto|].
    cbn [nested] in H. destruct H as [H1 H2]. pose proof (nested_main m t H2). lia.
Qed.

Section P.
Variable priority_of : regs -> Z -> Z.
Variable priority_main : regs -> Z.
Variable it_enabled : regs -> bool.
Notation scan := (scan priority_of priority_main).
Notation qualifies := (qualifies priority_of priority_main).

Lemma scan_ok l is_en r lv : nmi_set l ->
  exists x o, scan l is_en r lv = Ok (x, o) /\
  match o with
  | None => (forall s, In s l -> ~ qualifies is_en r lv s) /\ x = mkSt r lv
  | Some s => exists l1 l2, l = l1 ++ s :: l2 /\ qualifies is_en r lv s /\
      (forall s', In s' l1 -> ~ qualifies is_en r lv s') /\
      x = mkSt (clear r s) (priority_of r (u8 (nuof s)) :: lv)
  end.
Proof.
  induction l as [|s t IH]; intros Hn; cbn [IrqModel.scan].
  - exists (mkSt r lv), None. split; auto.
  - destruct (IH (Forall_inv_tail Hn)) as (x & o & E & P).
    assert (Skip : ~ qualifies is_en r lv s -> exists x o, scan t is_en r lv = Ok (x, o) /\
       match o with
       | None => (forall s0, In s0 (s :: t) -> ~ qualifies is_en r lv s0) /\ x = mkSt r lv
       | Some s0 => exists l1 l2, s :: t = l1 ++ s0 :: l2 /\ qualifies is_en r lv s0 /\
          (forall s', In s' l1 -> ~ qualifies is_en r lv s') /\
          x = mkSt (clear r s0) (priority_of r (u8 (nuof s0)) :: lv)
       end).
    { intros Nq. exists x, o. split; auto. destruct o as [s0|].
      - destruct P as (l1 & l2 & E1 & E2 & E3 & E4). exists (s :: l1), l2. split; [cbn [app]; congruence|].
        split; auto. split; auto. intros s' [<- | H]; auto.
      - destruct P as (P1 & P2). split; auto. intros s0 [<- | H]; auto. }
    pose proof (Forall_inv Hn) as Hnmi. cbv beta in Hnmi. unfold is_slave.
    destruct (parent s) as [p|] eqn:Ep; [apply Skip; intros (_ & _ & _ & X & _); congruence|].
    destruct (nmi s) as [n|] eqn:En; [|congruence].
    destruct (negb n && negb is_en) eqn:E1.
    { apply Skip. intros (_ & _ & _ & _ & [X|X] & _); [assert (n = true) by congruence|]; destruct n, is_en; discriminate. }
    destruct (active s && enabled r s && pending r s) eqn:E2.
    2:{ apply Skip. intros (A & B & C & _). rewrite A, B, C in E2. discriminate. }
    destruct (priority_of r (u8 (nuof s)) <=? ap priority_main r lv) eqn:E3.
    { apply Skip. intros (_ & _ & _ & _ & _ & X). unfold ap in E3. destruct lv as [|lev lv]; [lia|]. destruct (0 <=? lev); lia. }
    exists (mkSt (clear r s) (priority_of r (u8 (nuof s)) :: lv)), (Some s). split; auto.
    exists [], t. split; auto. split.
    + apply andb_true_iff in E2. destruct E2 as [E2 E4]. apply andb_true_iff in E2. destruct E2 as [E2 E5].
      repeat split; auto.
      * destruct n; [left; auto|]. right. destruct is_en; auto; discriminate.
      * unfold ap in E3. destruct lv as [|lev lv]; [lia|]. destruct (0 <=? lev); lia.
    + split; [intros s' []|reflexivity].
Qed.

(** -- nesting -- *)
Variable P : Z.

Lemma estep_nested l x e x' : (forall r n, 0 <= priority_of r n) ->
  nested (levels x) -> estep priority_of priority_main it_enabled l x e = Ok x' -> nested (levels x').
Proof.
  intros Hp H. destruct e; cbn [estep].
  - unfold do_interrupt.
    destruct (scan l (it_enabled (rg x)) (fold_left pass_over l (rg x)) (levels x)) as [[y o]| |] eqn:E;
      cbn [rbind fst]; try discriminate. intros X. injection X as <-.
    revert E. generalize (fold_left pass_over l (rg x)). generalize (it_enabled (rg x)). intros en r.
    induction l as [|s t IH]; cbn [IrqModel.scan].
    + intros X. injection X as <- <-. exact H.
    + destruct (is_slave s); auto. destruct (nmi s) as [n|]; [|discriminate].
      destruct (negb n && negb en); auto. destruct (active s && enabled r s && pending r s); auto.
      destruct (priority_of r (u8 (nuof s)) <=? ap priority_main r (levels x)) eqn:Ea; auto.
      intros X. injection X as <- <-. cbn [levels]. unfold ap in Ea.
      destruct (levels x) as [|lev lv]; [destruct H|]. cbn [nested]. split; auto.
      specialize (Hp r (u8 (nuof s))). destruct (0 <=? lev) eqn:El; lia.
  - intros X. injection X as <-. unfold reti. destruct (levels x) as [|l0 t] eqn:E; [rewrite E; auto|].
    destruct (0 <=? l0) eqn:El; [|rewrite E; auto]. cbn [levels]. apply (nested_inv l0 t H). lia.
  - intros X. injection X as <-. cbn [levels]. apply nested_unwind. exact H.
  - intros X. injection X as <-. exact H.
Qed.

Lemma erun_nested l es : (forall r n, 0 <= priority_of r n) -> forall x x',
  nested (levels x) -> erun priority_of priority_main it_enabled l x es = Ok x' -> nested (levels x').
Proof.
  intros Hp. induction es as [|e t IH]; intros x x' H; cbn [erun].
  - intros X. injection X as <-. auto.
  - destruct (estep priority_of priority_main it_enabled l x e) as [y| |] eqn:E; cbn [rbind]; try discriminate.
    apply IH. eapply estep_nested; eauto.
Qed.

Lemma estep_bound l x e x' : (forall r n, 0 <= priority_of r n < P) -> Forall (fun v => v < P) (levels x) ->
  estep priority_of priority_main it_enabled l x e = Ok x' -> Forall (fun v => v < P) (levels x').
Proof.
  intros Hp H. destruct e; cbn [estep].
  - unfold do_interrupt.
    destruct (scan l (it_enabled (rg x)) (fold_left pass_over l (rg x)) (levels x)) as [[y o]| |] eqn:E;
      cbn [rbind fst]; try discriminate. intros X. injection X as <-.
    revert E. generalize (fold_left pass_over l (rg x)). generalize (it_enabled (rg x)). intros en r.
    induction l as [|s t IH]; cbn [IrqModel.scan].
    + intros X. injection X as <- <-. exact H.
    + destruct (is_slave s); auto. destruct (nmi s) as [n|]; [|discriminate].
      destruct (negb n && negb en); auto. destruct (active s && enabled r s && pending r s); auto.
      destruct (priority_of r (u8 (nuof s)) <=? ap priority_main r (levels x)) eqn:Ea; auto.
      intros X. injection X as <- <-. cbn [levels]. constructor; auto. apply Hp.
  - intros X. injection X as <-. unfold reti. destruct (levels x) as [|l0 t] eqn:E; [rewrite E; auto|].
    destruct (0 <=? l0); [|rewrite E; auto]. cbn [levels]. apply (Forall_inv_tail H).
  - intros X. injection X as <-. cbn [levels]. revert H. induction (levels x) as [|l0 t IH]; cbn [unwind]; auto.
    intros H. destruct (0 <=? l0); auto. apply IH. apply (Forall_inv_tail H).
  - intros X. injection X as <-. exact H.
Qed.
Lemma erun_bound l es : (forall r n, 0 <= priority_of r n < P) -> forall x x',
  Forall (fun v => v < P) (levels x) -> erun priority_of priority_main it_enabled l x es = Ok x' ->
  Forall (fun v => v < P) (levels x').
Proof.
  intros Hp. induction es as [|e t IH]; intros x x' H; cbn [erun].
  - intros X. injection X as <-. auto.
  - destruct (estep priority_of priority_main it_enabled l x e) as [y| |] eqn:E; cbn [rbind]; try discriminate.
    apply IH. eapply estep_bound; eauto.
Qed.
End P.

Lemma nested_len lv : nested lv -> Z.of_nat (length lv) <= hd 0 lv + 2.
Proof.
  induction lv as [|l t IH]; [intros []|]. destruct t as [|m t]; cbn [nested hd length].
  - intros ->. lia.
  - intros [H1 H2]. specialize (IH H2). cbn [hd length] in IH. lia.
Qed.

(** -- MCS51 -- *)
Lemma scan51_ok IP l x : lv51 x <> [] ->
  exists y o, scan51 IP l x = Ok (y, o) /\
  ((o = None /\ y = x /\ forall s, In s l -> ~ qualifies51 IP (rg51 x) (lv51 x) s) \/
   exists l1 s l2, l = l1 ++ s :: l2 /\ qualifies51 IP (rg51 x) (lv51 x) s /\
      (forall s', In s' l1 -> ~ qualifies51 IP (rg51 x) (lv51 x) s') /\
      if idle x then o = None /\ y = mkSt51 (rg51 x) (lv51 x) true false
      else o = Some s /\ y = mkSt51 (clear (rg51 x) s) (priority51 (rg51 x IP) (u8 (ie_mask s)) :: lv51 x) (was_reti x) false).
Proof.
  intros Hne. induction l as [|s t IH]; cbn [scan51].
  - exists x, None. split; auto. 
  - assert (Skip : ~ qualifies51 IP (rg51 x) (lv51 x) s -> exists y o, scan51 IP t x = Ok (y, o) /\
      ((o = None /\ y = x /\ forall s0, In s0 (s :: t) -> ~ qualifies51 IP (rg51 x) (lv51 x) s0) \/
       exists l1 s0 l2, s :: t = l1 ++ s0 :: l2 /\ qualifies51 IP (rg51 x) (lv51 x) s0 /\
        (forall s', In s' l1 -> ~ qualifies51 IP (rg51 x) (lv51 x) s') /\
        if idle x then o = None /\ y = mkSt51 (rg51 x) (lv51 x) true false
        else o = Some s0 /\ y = mkSt51 (clear (rg51 x) s0) (priority51 (rg51 x IP) (u8 (ie_mask s0)) :: lv51 x) (was_reti x) false)).
    { intros Nq. destruct IH as (y & o & E & P). exists y, o. split; auto. destruct P as [(P1 & P2 & P3)|(l1 & s0 & l2 & E1 & E2 & E3 & E4)].
      - left. split; auto. split; auto. intros s0 [<- | H]; auto.
      - right. exists (s :: l1), s0, l2. split; [cbn [app]; congruence|]. split; auto. split; auto.
        intros s' [<- | H]; auto. }
    destruct (active s && enabled (rg51 x) s && pending (rg51 x) s) eqn:E2.
    2:{ apply Skip. intros (A & B & C & _). rewrite A, B, C in E2. discriminate. }
    destruct (lv51 x) as [|lev lv] eqn:El; [congruence|].
    destruct ((0 <=? lev) && (priority51 (rg51 x IP) (u8 (ie_mask s)) <=? lev)) eqn:E3.
    { apply Skip. intros (_ & _ & _ & X). unfold priority51 in E3. lia. }
    assert (Q : qualifies51 IP (rg51 x) (lev :: lv) s).
    { apply andb_true_iff in E2. destruct E2 as [E2 E4]. apply andb_true_iff in E2. destruct E2 as [E2 E5].
      repeat split; auto. unfold priority51 in E3. lia. }
    destruct (idle x) eqn:Ei; do 2 eexists; (split; [reflexivity|]); right; exists [], s, t;
      (split; [reflexivity|]); (split; [exact Q|]); (split; [intros s' []|]); auto.
Qed.
