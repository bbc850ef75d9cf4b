From Verif Require Import Base TickModel TickSpec.

Lemma nth_upd_same {A} (l : list A) n x d : (n < length l)%nat -> nth n (upd l n x) d = x.
Proof. revert n. induction l as [|a t IH]; intros [|n] H; cbn in *; try lia; auto. apply IH. lia. Qed.
Lemma nth_upd_other {A} (l : list A) n m x d : n <> m -> nth m (upd l n x) d = nth m l d.
Proof. revert n m. induction l as [|a t IH]; intros [|n] [|m] H; cbn; auto; try lia. Qed.
Lemma nth_some_lt {A} (l : list (option A)) n t : nth n l None = Some t -> (n < length l)%nat.
Proof. intros H. destruct (Nat.lt_ge_cases n (length l)); auto. rewrite nth_overflow in H by lia. discriminate. Qed.

Lemma find_name_spec n l i k : find_name n l i = Some k ->
  i <= k /\ k - i < Z.of_nat (length l) /\ has_name n (nth (Z.to_nat (k - i)) l None) = true.
Proof.
  revert i. induction l as [|o t IH]; intros i; cbn [find_name]; [discriminate|].
  destruct (has_name n o) eqn:E.
  - intros X. injection X as <-. replace (i - i) with 0 by lia. cbn [Z.to_nat nth length]. split; [lia|]. split; [lia|auto].
  - intros X. destruct (IH _ X) as (H1 & H2 & H3). cbn [length]. split; [lia|]. split; [lia|].
    replace (Z.to_nat (k - i)) with (S (Z.to_nat (k - (i + 1)))) by lia. exact H3.
Qed.
Lemma find_name_none n l i : find_name n l i = None -> forall j, has_name n (nth j l None) = false.
Proof.
  revert i. induction l as [|o t IH]; intros i; cbn [find_name].
  - intros _ [|j]; reflexivity.
  - destruct (has_name n o) eqn:E; [discriminate|]. intros X [|j]; auto. cbn [nth]. apply (IH _ X).
Qed.

Lemma get_counter_spec x i k : bad_id i = false -> get_counter x i = Some k ->
  0 <= k < Z.of_nat (length (ctrs x)) /\
  exists t, tk_at x k = Some t /\ designates k t i.
Proof.
  intros Hb. destruct i as [n|n]; cbn [get_counter bad_id] in *.
  - destruct (Z.of_nat (length (ctrs x)) <=? n) eqn:E; [discriminate|].
    destruct (nth (Z.to_nat n) (ctrs x) None) as [t|] eqn:E2; [|discriminate].
    intros X. injection X as <-. split; [lia|]. exists t. split; auto. reflexivity.
  - intros X. destruct (find_name_spec _ _ _ _ X) as (H1 & H2 & H3). replace (k - 0) with k in * by lia.
    split; [lia|]. unfold tk_at. destruct (nth (Z.to_nat k) (ctrs x) None) as [t|] eqn:E; [|discriminate].
    exists t. split; auto. cbn [has_name] in H3. cbn [designates]. destruct (tname t) as [m|]; [|discriminate].
    f_equal. lia.
Qed.

(** what identifies a timer *)
Definition same_kind (t u : ticker) : Prop :=
  tdir t = tdir u /\ ttype t = ttype u /\ trun t = trun u /\ tname t = tname u /\ tuser t = tuser u.

Lemma tk_at_put x k j o : 0 <= k < Z.of_nat (length (ctrs x)) -> 0 <= j ->
  tk_at (put_at x k o) j = if j =? k then o else tk_at x j.
Proof.
  intros Hk Hj. unfold tk_at, put_at. cbn [ctrs]. destruct (j =? k) eqn:E.
  - replace j with k by lia. apply nth_upd_same. lia.
  - apply nth_upd_other. lia.
Qed.

Lemma modify_other x i f k t : 0 <= k -> tk_at x k = Some t -> ~ designates k t i -> tk_at (modify x i f) k = Some t.
Proof.
  intros Hk Ht Hd. unfold modify. destruct (bad_id i) eqn:B; auto.
  destruct (get_counter x i) as [k'|] eqn:G; auto.
  destruct (get_counter_spec _ _ _ B G) as (R & u & Hu & D). rewrite Hu.
  rewrite tk_at_put by auto. destruct (k =? k') eqn:E; auto.
  exfalso. assert (k = k') by lia. subst k'. rewrite Ht in Hu. injection Hu as <-. auto.
Qed.

Lemma modify_env x i f : isr (modify x i f) = isr x /\ cst (modify x i f) = cst x.
Proof.
  unfold modify. destruct (bad_id i); auto. destruct (get_counter x i); auto. destruct (tk_at x z); auto.
Qed.
Lemma del_env x i : isr (cmd_del x i) = isr x /\ cst (cmd_del x i) = cst x.
Proof.
  unfold cmd_del. destruct (bad_id i); auto. destruct (get_counter x i); auto. destruct (tk_at x z) as [t|]; auto.
  destruct (tuser t); auto.
Qed.
Lemma del_other x i k t : 0 <= k -> tk_at x k = Some t -> ~ designates k t i -> tk_at (cmd_del x i) k = Some t.
Proof.
  intros Hk Ht Hd. unfold cmd_del. destruct (bad_id i) eqn:B; auto.
  destruct (get_counter x i) as [k'|] eqn:G; auto.
  destruct (get_counter_spec _ _ _ B G) as (R & u & Hu & D). rewrite Hu. destruct (tuser u); auto.
  rewrite tk_at_put by auto. destruct (k =? k') eqn:E; auto.
  exfalso. assert (k = k') by lia. subst k'. rewrite Ht in Hu. injection Hu as <-. auto.
Qed.

Lemma first_free_spec l i k : first_free l i = Some k ->
  i <= k /\ k - i < Z.of_nat (length l) /\ nth (Z.to_nat (k - i)) l None = None.
Proof.
  revert i. induction l as [|o t IH]; intros i; cbn [first_free]; [discriminate|].
  destruct o as [u|].
  - intros X. destruct (IH _ X) as (H1 & H2 & H3). cbn [length]. split; [lia|]. split; [lia|].
    replace (Z.to_nat (k - i)) with (S (Z.to_nat (k - (i + 1)))) by lia. exact H3.
  - intros X. injection X as <-. replace (i - i) with 0 by lia. cbn. split; [lia|]. split; [lia|auto].
Qed.

(** adding: exactly one slot that was empty (or did not exist) gets the new timer *)
Lemma add_nr_spec x t n y : 0 < n -> get_counter x (ByNr n) = None -> add_nr x t n = Ok y ->
  isr y = isr x /\ cst y = cst x /\ tk_at x n = None /\ tk_at y n = Some t /\
  forall k, 0 <= k -> k <> n -> tk_at y k = tk_at x k.
Proof.
  intros Hn G. unfold add_nr.
  set (pad := Z.to_nat (n + 1 - Z.of_nat (length (ctrs x)))).
  destruct (8192 <? Z.of_nat (length (ctrs x) + pad)) eqn:E; [discriminate|]. intros X. injection X as <-.
  cbn [isr cst put_at]. split; auto. split; auto.
  assert (Hext : forall k, 0 <= k -> nth (Z.to_nat k) (ctrs x ++ repeat None pad) None = tk_at x k).
  { intros k Hk. unfold tk_at. destruct (Nat.lt_ge_cases (Z.to_nat k) (length (ctrs x))) as [L|L].
    - apply app_nth1. lia.
    - rewrite app_nth2 by lia. rewrite (nth_overflow (ctrs x)) by lia.
      generalize (Z.to_nat k - length (ctrs x))%nat. clear. induction pad; intros [|m]; cbn; auto. }
  split.
  { cbn [get_counter] in G. unfold tk_at. destruct (Z.of_nat (length (ctrs x)) <=? n) eqn:L.
    - apply nth_overflow. lia.
    - destruct (nth (Z.to_nat n) (ctrs x) None); auto. discriminate. }
  assert (Hl : (Z.to_nat n < length (ctrs x ++ repeat None pad))%nat).
  { rewrite app_length, repeat_length. unfold pad. lia. }
  split.
  - unfold tk_at. cbn [ctrs put_at]. apply nth_upd_same. exact Hl.
  - intros k Hk Hd. rewrite <- Hext by lia. unfold tk_at. cbn [ctrs put_at]. apply nth_upd_other. lia.
Qed.

Lemma add_name_spec x t y : add_name x t = Ok y ->
  isr y = isr x /\ cst y = cst x /\ exists n, 0 < n /\ tk_at x n = None /\ tk_at y n = Some t /\
  forall k, 0 <= k -> k <> n -> tk_at y k = tk_at x k.
Proof.
  unfold add_name. set (c := match ctrs x with [] => [None] | c => c end).
  assert (Hc : forall k, nth k c None = nth k (ctrs x) None).
  { intros k. unfold c. destruct (ctrs x); auto. destruct k as [|[|k]]; reflexivity. }
  assert (Hl : (1 <= length c)%nat) by (unfold c; destruct (ctrs x); cbn; lia).
  destruct (first_free (tl c) 1) as [n|] eqn:F.
  - intros X. injection X as <-. cbn [isr cst put_at]. split; auto. split; auto. exists n.
    destruct (first_free_spec _ _ _ F) as (H1 & H2 & H3).
    assert (Hn : nth (Z.to_nat n) c None = None).
    { destruct c as [|z c']; [cbn in Hl; lia|]. cbn [tl] in *. replace (Z.to_nat n) with (S (Z.to_nat (n - 1))) by lia. exact H3. }
    assert (Hnl : (Z.to_nat n < length c)%nat).
    { destruct c as [|z c']; [cbn in Hl; lia|]. cbn [tl length] in *. lia. }
    split; [lia|]. split; [unfold tk_at; rewrite <- Hc; exact Hn|]. unfold tk_at. cbn [ctrs put_at]. split.
    + apply nth_upd_same. exact Hnl.
    + intros k Hk Hd. rewrite nth_upd_other by lia. apply Hc.
  - destruct (8192 <=? Z.of_nat (length c)); [discriminate|]. intros X. injection X as <-. cbn [isr cst]. split; auto. split; auto.
    exists (Z.of_nat (length c)). split; [lia|]. unfold tk_at. cbn [ctrs]. rewrite Nat2Z.id. split; [|split].
    + rewrite <- Hc. apply nth_overflow. lia.
    + rewrite app_nth2 by lia. rewrite Nat.sub_diag. reflexivity.
    + intros k Hk Hd. rewrite <- Hc. destruct (Nat.lt_ge_cases (Z.to_nat k) (length c)).
      * apply app_nth1. lia.
      * rewrite !nth_overflow; auto. rewrite app_length. cbn [length]. lia.
Qed.

Lemma cmd_add_env x i d ty y : cmd_add x i d ty = Ok y -> isr y = isr x /\ cst y = cst x.
Proof.
  unfold cmd_add. destruct (bad_id i) eqn:B; [intros X; injection X as <-; auto|].
  destruct (get_counter x i) eqn:G; [intros X; injection X as <-; auto|].
  destruct i as [n|n]; cbn [bad_id] in B; intros X.
  - destruct (add_nr_spec _ _ n _ ltac:(lia) G X) as (A1 & A2 & _). auto.
  - destruct (add_name_spec _ _ _ X) as (A1 & A2 & _). auto.
Qed.
Lemma cmd_add_other x i d ty y k t : 0 <= k -> cmd_add x i d ty = Ok y -> tk_at x k = Some t -> tk_at y k = Some t.
Proof.
  intros Hk. unfold cmd_add. destruct (bad_id i) eqn:B; [intros X; injection X as <-; auto|].
  destruct (get_counter x i) eqn:G; [intros X; injection X as <-; auto|].
  destruct i as [n|n]; cbn [bad_id] in B; intros X Ht.
  - destruct (add_nr_spec _ _ n _ ltac:(lia) G X) as (_ & _ & A1 & A2 & A3). rewrite A3; auto. congruence.
  - destruct (add_name_spec _ _ _ X) as (_ & _ & m & A0 & A1 & A2 & A3). rewrite A3; auto. congruence.
Qed.

Lemma nth_map_opt (f : ticker -> ticker) (l : list (option ticker)) k :
  nth k (map (fun o => match o with Some t => Some (f t) | None => None end) l) None =
  match nth k l None with Some t => Some (f t) | None => None end.
Proof. revert k. induction l as [|a t IH]; intros [|k]; cbn; auto. Qed.

Lemma uc_tick_at cpc c x y k : uc_tick cpc c x = Ok y ->
  isr y = isr x /\ cst y = cst x /\
  tk_at y k = match tk_at x k with
    | Some t => Some (if trun t && counts (ttype t) (isr x) (cst x) then tk_tick t (c * cpc) else t)
    | None => None end.
Proof.
  unfold uc_tick. destruct (_ || _); [discriminate|]. intros X. injection X as <-. cbn [isr cst]. split; auto. split; auto.
  unfold tk_at. cbn [ctrs].
  rewrite <- (nth_map_opt (fun t => if trun t && counts (ttype t) (isr x) (cst x) then tk_tick t (c * cpc) else t)).
  f_equal. apply map_ext. intros [t|]; auto. destruct (trun t && _); auto.
Qed.

Lemma reset_other x k : 4 < k -> tk_at (reset_ctr x) k = tk_at x k.
Proof.
  intros Hk. unfold tk_at, reset_ctr. cbn [ctrs]. destruct (ctrs x) as [|z [|a [|b [|c [|d t]]]]]; auto.
  replace (Z.to_nat k) with (S (S (S (S (S (Z.to_nat (k - 5))))))) by lia. reflexivity.
Qed.

Lemma u64_idem x y : u64 (u64 x + y) = u64 (x + y).
Proof. unfold u64. rewrite Zplus_mod_idemp_l. reflexivity. Qed.
Lemma u64_idem_m x y : u64 (u64 x - y) = u64 (x - y).
Proof. unfold u64. rewrite Zminus_mod_idemp_l. reflexivity. Qed.

(** signed count *)
Definition signed (t : ticker) (n : Z) : Z := if 0 <=? tdir t then n else - n.

Lemma trun_all_count cpc k es : forall x y t, 0 <= k ->
  tk_at x k = Some t -> 0 <= tval t < 18446744073709551616 ->
  Forall (leaves_alone k t) es -> trun_all cpc x es = Ok y ->
  exists t', tk_at y k = Some t' /\ same_kind t' t /\
    tval t' = if trun t then u64 (tval t + signed t (clocks_of cpc (ttype t) (isr x) (cst x) es)) else tval t.
Proof.
  induction es as [|e es IH]; intros x y t Hk Ht Hr HF; cbn [trun_all].
  - intros X. injection X as <-. exists t. split; auto. split; [repeat split|]. cbn [clocks_of].
    destruct (trun t); auto. unfold u64, signed. destruct (0 <=? tdir t); rewrite Z.mod_small by lia; lia.
  - destruct (tstep cpc x e) as [x1| |] eqn:E; cbn [rbind]; try discriminate. intros R.
    pose proof (Forall_inv HF) as L. pose proof (Forall_inv_tail HF) as LT.
    assert (Same : tk_at x1 k = Some t ->
      clocks_of cpc (ttype t) (isr x) (cst x) (e :: es) = clocks_of cpc (ttype t) (isr x1) (cst x1) es ->
      exists t', tk_at y k = Some t' /\ same_kind t' t /\
      tval t' = if trun t then u64 (tval t + signed t (clocks_of cpc (ttype t) (isr x) (cst x) (e :: es))) else tval t).
    { intros H1 ->. apply (IH x1 y t); auto. }
    destruct e; cbn [tstep] in E.
    + destruct (uc_tick_at _ _ _ _ k E) as (I1 & I2 & I3). rewrite Ht in I3.
      destruct (trun t && counts (ttype t) (isr x) (cst x)) eqn:C.
      * apply andb_true_iff in C. destruct C as [C1 C2].
        destruct (IH x1 y (tk_tick t (cycles * cpc)) Hk I3) as (t' & J1 & J2 & J3); auto.
        { cbn [tk_tick tval]. unfold u64. destruct (0 <=? tdir t); lia. }
        exists t'. split; auto. split; [exact J2|]. cbn [tk_tick trun ttype tdir tval signed] in J3. rewrite C1 in *.
        rewrite I1, I2 in J3. rewrite J3. unfold signed. cbn [tdir tk_tick clocks_of].
        assert ((match ttype t, cst x with
          | TAny, _ => true | TIsr, _ => isr x | TIdle, StIdle => true | THalt, StPd => true | _, _ => false end) = true) as ->.
        { unfold counts in C2. destruct (ttype t), (cst x); auto. }
        destruct (0 <=? tdir t).
        -- rewrite u64_idem. f_equal. lia.
        -- rewrite <- Z.sub_opp_r, Z.opp_involutive, u64_idem_m. f_equal. lia.
      * destruct (IH x1 y t Hk I3) as (t' & J1 & J2 & J3); auto. exists t'. split; auto. split; auto. rewrite J3.
        destruct (trun t); auto. cbn [andb] in C. rewrite I1, I2. cbn [clocks_of].
        assert ((match ttype t, cst x with
          | TAny, _ => true | TIsr, _ => isr x | TIdle, StIdle => true | THalt, StPd => true | _, _ => false end) = false) as ->.
        { unfold counts in C. destruct (ttype t), (cst x); auto. }
        reflexivity.
    + injection E as <-. apply Same; auto.
    + injection E as <-. apply Same; auto.
    + apply Same; [eapply cmd_add_other; eauto|]. destruct (cmd_add_env _ _ _ _ _ E) as [-> ->]. reflexivity.
    + injection E as <-. apply Same; [apply del_other; auto|]. destruct (del_env x i) as [-> ->]. reflexivity.
    + injection E as <-. apply Same; [apply modify_other; auto|]. destruct (modify_env x i (fun t0 => tk_run t0 b)) as [-> ->]. reflexivity.
    + injection E as <-. apply Same; [apply modify_other; auto|]. destruct (modify_env x i (fun t0 => tk_set t0 n)) as [-> ->]. reflexivity.
    + injection E as <-. apply Same; [|reflexivity]. cbn [leaves_alone] in L. rewrite reset_other by lia. exact Ht.
Qed.

(** -- builtin timers -- *)
Definition builtin (x : tst) : Prop :=
  forall k, 1 <= k <= 4 -> exists t, tk_at x k = Some t /\ tuser t = false /\ tdir t = 1 /\
    ttype t = (if k =? 1 then TAny else if k =? 2 then TIsr else if k =? 3 then TIdle else THalt) /\
    tname t = Some (- k).

Lemma builtin_step cpc x e y : builtin x -> tstep cpc x e = Ok y -> builtin y.
Proof.
  intros B E k Hk. destruct (B k Hk) as (t & T1 & T2 & T3 & T4 & T5).
  assert (Same : tk_at y k = Some t -> exists t0, tk_at y k = Some t0 /\ tuser t0 = false /\ tdir t0 = 1 /\
    ttype t0 = (if k =? 1 then TAny else if k =? 2 then TIsr else if k =? 3 then TIdle else THalt) /\ tname t0 = Some (- k)) by eauto 10.
  assert (Md : forall i f, (forall t, tuser (f t) = tuser t /\ tdir (f t) = tdir t /\ ttype (f t) = ttype t /\ tname (f t) = tname t) ->
    exists t0, tk_at (modify x i f) k = Some t0 /\ tuser t0 = false /\ tdir t0 = 1 /\
    ttype t0 = (if k =? 1 then TAny else if k =? 2 then TIsr else if k =? 3 then TIdle else THalt) /\ tname t0 = Some (- k)).
  { intros i f Hf. unfold modify. destruct (bad_id i) eqn:Bi; [eauto 10|].
    destruct (get_counter x i) as [k'|] eqn:G; [|eauto 10].
    destruct (get_counter_spec _ _ _ Bi G) as (R & u & Hu & D). rewrite Hu. rewrite tk_at_put by lia.
    destruct (k =? k') eqn:Ek; [|eauto 10]. assert (k = k') by lia. subst k'. rewrite T1 in Hu. injection Hu as <-.
    exists (f t). destruct (Hf t) as (F1 & F2 & F3 & F4). rewrite F1, F2, F3, F4. eauto 10. }
  destruct e; cbn [tstep] in E.
  - destruct (uc_tick_at _ _ _ _ k E) as (_ & _ & I). rewrite T1 in I. rewrite I. eexists. split; [reflexivity|].
    destruct (trun t && counts (ttype t) (isr x) (cst x)); auto.
  - injection E as <-. auto.
  - injection E as <-. auto.
  - apply Same. eapply cmd_add_other; eauto. lia.
  - injection E as <-. apply Same. unfold cmd_del. destruct (bad_id i) eqn:Bi; auto.
    destruct (get_counter x i) as [k'|] eqn:G; auto.
    destruct (get_counter_spec _ _ _ Bi G) as (R & u & Hu & D). rewrite Hu. destruct (tuser u) eqn:Eu; auto.
    rewrite tk_at_put by lia. destruct (k =? k') eqn:Ek; auto. assert (k = k') by lia. subst k'. congruence.
  - injection E as <-. apply Md. intros. cbn. auto.
  - injection E as <-. apply Md. intros. cbn. auto.
  - injection E as <-. exists (tk_set t 0). split; [|cbn; auto].
    unfold tk_at, reset_ctr in *. cbn [ctrs].
    assert (L : (4 < length (ctrs x))%nat).
    { destruct (B 4 ltac:(lia)) as (t4 & F & _). apply nth_some_lt in F. lia. }
    destruct (ctrs x) as [|z [|a [|b [|c [|d l]]]]]; cbn [length] in L; try lia.
    assert (k = 1 \/ k = 2 \/ k = 3 \/ k = 4) as [-> | [-> | [-> | ->]]] by lia;
      [change (Z.to_nat 1) with 1%nat in *|change (Z.to_nat 2) with 2%nat in *|change (Z.to_nat 3) with 3%nat in *|change (Z.to_nat 4) with 4%nat in *];
      cbn [nth] in T1 |- *; rewrite T1; reflexivity.
Qed.
Lemma builtin_run cpc es : forall x y, builtin x -> trun_all cpc x es = Ok y -> builtin y.
Proof.
  induction es as [|e t IH]; intros x y B; cbn [trun_all].
  - intros X. injection X as <-. auto.
  - destruct (tstep cpc x e) as [x1| |] eqn:E; cbn [rbind]; try discriminate. apply IH. eapply builtin_step; eauto.
Qed.
Lemma builtin_init : builtin tinit_st.
Proof. intros k Hk. assert (k = 1 \/ k = 2 \/ k = 3 \/ k = 4) as [-> | [-> | [-> | ->]]] by lia; eexists; (split; [reflexivity|]); repeat split. Qed.

Lemma trun_all_app cpc a b x : trun_all cpc x (a ++ b) = rbind (trun_all cpc x a) (fun y => trun_all cpc y b).
Proof.
  revert x. induction a as [|e t IH]; intros x; cbn [app trun_all rbind]; auto.
  destruct (tstep cpc x e); cbn [rbind]; auto.
Qed.

Lemma clocks_le cpc ty i s es : 0 <= cpc -> Forall (fun e => match e with Tick c => 0 <= c | _ => True end) es ->
  0 <= clocks_of cpc ty i s es <= clocks_of cpc TAny i s es.
Proof.
  intros Hc. revert i s. induction es as [|e t IH]; intros i s HF; cbn [clocks_of]; [lia|].
  pose proof (Forall_inv HF) as L. specialize (IH) with (1 := Forall_inv_tail HF).
  destruct e; auto. specialize (IH i s). assert (0 <= cycles * cpc) by nia.
  destruct ty, s, i; lia.
Qed.

(** -- unique names -- *)
Lemma names_init : names_unique tinit_st.
Proof.
  intros i j t u n Hi Hj Ht Hu.
  destruct i as [|[|[|[|[|[|i]]]]]]; cbn in Hi; try discriminate;
  destruct j as [|[|[|[|[|[|j]]]]]]; cbn in Hj; try discriminate; try reflexivity;
  injection Hi as <-; injection Hj as <-; cbv in Ht, Hu; congruence.
Qed.

(** a step that maps every present timer to one of the same name, adding none *)
Lemma names_shrink x y : names_unique x ->
  (forall k u, tk_at y (Z.of_nat k) = Some u -> exists t, tk_at x (Z.of_nat k) = Some t /\ tname t = tname u) -> names_unique y.
Proof.
  intros N H i j t u n Hi Hj Ht Hu.
  destruct (H i t) as (t' & T1 & T2); [unfold tk_at; rewrite Nat2Z.id; auto|].
  destruct (H j u) as (u' & U1 & U2); [unfold tk_at; rewrite Nat2Z.id; auto|].
  unfold tk_at in T1, U1. rewrite Nat2Z.id in T1, U1. apply (N i j t' u' n); auto; congruence.
Qed.

Lemma names_add x y n t : names_unique x -> 0 <= n -> tk_at y n = Some t ->
  (forall k, 0 <= k -> k <> n -> tk_at y k = tk_at x k) ->
  (forall m, tname t = Some m -> forall k u, tk_at x k = Some u -> tname u <> Some m) -> names_unique y.
Proof.
  intros N Hn Ht Ho Hf i j a b m Hi Hj Ha Hb.
  assert (K : forall i a, nth i (ctrs y) None = Some a -> (Z.of_nat i = n /\ a = t) \/ (Z.of_nat i <> n /\ nth i (ctrs x) None = Some a)).
  { intros i0 a0 H0. destruct (Z.eq_dec (Z.of_nat i0) n) as [E|E].
    - left. split; auto. unfold tk_at in Ht. rewrite <- E, Nat2Z.id in Ht. congruence.
    - right. split; auto. specialize (Ho (Z.of_nat i0) ltac:(lia) E). unfold tk_at in Ho. rewrite Nat2Z.id in Ho. congruence. }
  destruct (K i a Hi) as [[E1 ->]|[E1 H1]], (K j b Hj) as [[E2 ->]|[E2 H2]]; [lia| | |].
  - exfalso. apply (Hf m Ha (Z.of_nat j) b); auto. unfold tk_at. rewrite Nat2Z.id. auto.
  - exfalso. apply (Hf m Hb (Z.of_nat i) a); auto. unfold tk_at. rewrite Nat2Z.id. auto.
  - eapply N; eauto.
Qed.

Lemma names_step cpc x e y : names_unique x -> tstep cpc x e = Ok y -> names_unique y.
Proof.
  intros N E.
  assert (Md : forall i f, (forall t, tname (f t) = tname t) -> names_unique (modify x i f)).
  { intros i f Hf. unfold modify. destruct (bad_id i) eqn:Bi; auto.
    destruct (get_counter x i) as [k'|] eqn:G; auto.
    destruct (get_counter_spec _ _ _ Bi G) as (R & u & Hu & D). rewrite Hu.
    apply (names_shrink x); auto. intros k w. rewrite tk_at_put by lia.
    destruct (Z.of_nat k =? k') eqn:Ek; [|eauto]. intros X. injection X as <-. exists u. rewrite Hf.
    replace (Z.of_nat k) with k' by lia. auto. }
  destruct e; cbn [tstep] in E.
  - apply (names_shrink x); auto. intros k u Hu. destruct (uc_tick_at _ _ _ _ (Z.of_nat k) E) as (_ & _ & I).
    rewrite I in Hu. destruct (tk_at x (Z.of_nat k)) as [t|]; [|discriminate]. injection Hu as <-. exists t. split; auto.
    destruct (_ && _); auto.
  - injection E as <-. exact N.
  - injection E as <-. exact N.
  - unfold cmd_add in E. destruct (bad_id i) eqn:B; [injection E as <-; auto|].
    destruct (get_counter x i) eqn:G; [injection E as <-; auto|].
    destruct i as [n|n]; cbn [bad_id] in B.
    + destruct (add_nr_spec _ _ n _ ltac:(lia) G E) as (_ & _ & A1 & A2 & A3).
      eapply names_add; eauto; [lia|]. cbn. discriminate.
    + destruct (add_name_spec _ _ _ E) as (_ & _ & m & A0 & A1 & A2 & A3).
      eapply names_add; eauto; [lia|]. cbn [new_ticker tname]. intros q Q. injection Q as <-.
      intros k u Hu Hq. cbn [get_counter] in G. pose proof (find_name_none _ _ _ G (Z.to_nat k)) as F.
      unfold tk_at in Hu. rewrite Hu in F. cbn [has_name] in F. rewrite Hq in F. lia.
  - injection E as <-. unfold cmd_del. destruct (bad_id i) eqn:Bi; auto.
    destruct (get_counter x i) as [k'|] eqn:G; auto.
    destruct (get_counter_spec _ _ _ Bi G) as (R & u & Hu & D). rewrite Hu. destruct (tuser u); auto.
    apply (names_shrink x); auto. intros k w. rewrite tk_at_put by lia.
    destruct (Z.of_nat k =? k') eqn:Ek; [discriminate|eauto].
  - injection E as <-. apply Md. auto.
  - injection E as <-. apply Md. auto.
  - injection E as <-. apply (names_shrink x); auto. intros k u Hu.
    unfold tk_at, reset_ctr in *. rewrite Nat2Z.id in *. cbn [ctrs] in Hu.
    destruct (ctrs x) as [|z [|a [|b [|c [|d l]]]]]; eauto.
    destruct k as [|[|[|[|[|k]]]]]; cbn [nth] in Hu |- *; eauto;
      match goal with H : match ?o with _ => _ end = _ |- _ => destruct o; [|discriminate]; injection H as <-; eauto end.
Qed.
Lemma names_run cpc es : forall x y, names_unique x -> trun_all cpc x es = Ok y -> names_unique y.
Proof.
  induction es as [|e t IH]; intros x y B; cbn [trun_all].
  - intros X. injection X as <-. auto.
  - destruct (tstep cpc x e) as [x1| |] eqn:E; cbn [rbind]; try discriminate. apply IH. eapply names_step; eauto.
Qed.
