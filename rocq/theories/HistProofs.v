From Verif Require Import Base HistModel HistSpec.

Lemma mod_wrap len p : 0 < len -> 0 <= p < 2 * len -> p mod len = if p <? len then p else p - len.
Proof.
  intros Hl Hp. destruct (p <? len) eqn:E; [apply Z.mod_small; lia|].
  symmetry. apply Z.mod_unique with 1; lia.
Qed.

Ltac ifs := repeat match goal with |- context [if ?b then _ else _] => lazymatch b with context [if _ then _ else _] => fail | _ => destruct b eqn:? end | H : context [if ?b then _ else _] |- _ => lazymatch b with context [if _ then _ else _] => fail | _ => destruct b eqn:? end end.

Lemma nth_lt {A} (l : list A) k e : nth_error l k = Some e -> (k < length l)%nat.
Proof. intros H. apply nth_error_Some. congruence. Qed.

Section P.
Variable len : Z.
Hypothesis Hlen : 2 <= len.

Definition pos (t k : Z) : Z := let p := t + 1 + k in if p <? len then p else p - len.

(** [x] represents the list [l], oldest first *)
Record rep (x : hist) (l : list (Z * Z)) : Prop := {
  rt : 0 <= t x < len; rh : 0 <= h x < len;
  rused : get_used len x = Z.of_nat (length l);
  relem : forall k e, nth_error l k = Some e -> arr x (pos (t x) (Z.of_nat k)) = Some e }.

Lemma used_range x : 0 <= t x < len -> 0 <= h x < len -> 0 <= get_used len x < len.
Proof. unfold get_used. intros. destruct (t x =? h x) eqn:?, (t x <? h x) eqn:?; lia. Qed.

Lemma used_pos x : 0 <= t x < len -> 0 <= h x < len ->
  h x = (if get_used len x =? 0 then t x else pos (t x) (get_used len x - 1)).
Proof.
  unfold get_used, pos. intros. destruct (t x =? h x) eqn:E1.
  - cbn. lia.
  - destruct (t x <? h x) eqn:E2; destruct (_ =? 0) eqn:E3; cbv zeta;
    try destruct (_ <? len) eqn:E4; lia.
Qed.

Lemma log_app l a n pc : log (l ++ [(a, n)]) pc = if a =? pc then l ++ [(a, n + 1)] else (l ++ [(a, n)]) ++ [(pc, 1)].
Proof.
  induction l as [|e l IH].
  - cbn [app log]. destruct (a =? pc); reflexivity.
  - assert (Hc : forall q, q <> [] -> log (e :: q) pc = e :: log q pc) by (intros [|? ?] Q; [congruence|destruct e; reflexivity]).
    change (log (e :: (l ++ [(a, n)])) pc = if a =? pc then e :: l ++ [(a, n + 1)] else e :: (l ++ [(a, n)]) ++ [(pc, 1)]).
    rewrite Hc by (destruct l; discriminate). rewrite IH. destruct (a =? pc); reflexivity.
Qed.

Lemma newest_all {A} n (l : list A) : Z.of_nat (length l) <= n -> newest n l = l.
Proof. intros H. unfold newest. replace (length l - Z.to_nat n)%nat with 0%nat by lia. reflexivity. Qed.

Lemma newest_cons {A} n (x : A) l : 0 <= n < Z.of_nat (length (x :: l)) -> newest n (x :: l) = newest n l.
Proof.
  intros H. unfold newest. cbn [length] in *.
  replace (S (length l) - Z.to_nat n)%nat with (S (length l - Z.to_nat n)) by lia. reflexivity.
Qed.

Lemma pos_range tt k : 0 <= tt < len -> 0 <= k < len -> 0 <= pos tt k < len.
Proof. unfold pos. intros. cbv zeta. destruct (_ <? len) eqn:?; lia. Qed.
Lemma pos_inj tt k k' : 0 <= tt < len -> 0 <= k < len -> 0 <= k' < len -> pos tt k = pos tt k' -> k = k'.
Proof. unfold pos. intros. cbv zeta in *. destruct (tt + 1 + k <? len) eqn:?, (tt + 1 + k' <? len) eqn:?; lia. Qed.
Lemma pos_next tt k : 0 <= tt < len -> 0 <= k < len - 1 -> (pos tt k + 1) mod len = pos tt (k + 1).
Proof.
  unfold pos. intros. cbv zeta. rewrite mod_wrap by (ifs; lia). ifs; lia.
Qed.
Lemma pos_tail tt k : 0 <= tt < len -> 0 <= k < len - 1 -> pos ((tt + 1) mod len) k = pos tt (k + 1).
Proof.
  unfold pos. intros. cbv zeta. rewrite mod_wrap by lia. ifs; lia.
Qed.

Lemma rep_new : rep new_hist [].
Proof.
  split; cbn; try lia; try reflexivity. intros k e H. destruct k; discriminate.
Qed.

Lemma rep_len x l : rep x l -> Z.of_nat (length l) <= len - 1.
Proof. intros R. pose proof (used_range x (rt _ _ R) (rh _ _ R)). rewrite (rused _ _ R) in *. lia. Qed.

Lemma rep_empty x l : rep x l -> (t x =? h x) = match l with [] => true | _ => false end.
Proof.
  intros R. pose proof (rused _ _ R) as U. unfold get_used in U. pose proof (rt _ _ R). pose proof (rh _ _ R).
  destruct (t x =? h x) eqn:E; destruct l; cbn [length] in U; try reflexivity; try lia.
  destruct (t x <? h x) eqn:?; lia.
Qed.

Lemma append_ok x l pc : rep x l ->
  let nh := (h x + 1) mod len in
  rep (set_arr (mkHist nh (if t x =? nh then (t x + 1) mod len else t x) (arr x)) nh (pc, 1)) (newest (len - 1) (l ++ [(pc, 1)])).
Proof.
  intros R. pose proof (rep_len x l R) as HL. destruct R as [Ht Hh Hu He].
  pose proof (used_pos x Ht Hh) as Hp. pose proof (used_range x Ht Hh) as Hr.
  set (n := Z.of_nat (length l)) in *.
  assert (Hnh : (h x + 1) mod len = if n =? len - 1 then t x else pos (t x) n).
  { rewrite mod_wrap by lia. rewrite Hu in Hp. unfold pos in *. cbv zeta in *.
    destruct (n =? 0) eqn:E0; destruct (n =? len - 1) eqn:E1;
    ifs; lia. }
  cbv zeta. rewrite Hnh.
  destruct (n =? len - 1) eqn:Efull.
  - (* full: the oldest is dropped *)
    rewrite Z.eqb_refl.
    destruct l as [|e0 l']; [cbn in n; lia|].
    cbn [app]. rewrite newest_cons by (cbn [length] in *; rewrite app_length; cbn [length]; lia).
    rewrite newest_all by (rewrite app_length; cbn [length] in *; lia).
    assert (Hn : n = Z.of_nat (length l') + 1) by (unfold n; cbn [length]; lia).
    assert (Hpl : pos ((t x + 1) mod len) (Z.of_nat (length l')) = t x).
    { rewrite pos_tail by lia. unfold pos. cbv zeta. destruct (_ <? len) eqn:?; lia. }
    split.
    + cbn. apply Z.mod_pos_bound. lia.
    + cbn. lia.
    + rewrite app_length. cbn [length]. unfold get_used. cbn [h t set_arr].
      rewrite mod_wrap by lia.
      ifs; lia.
    + intros k e Hk. cbn [set_arr arr t h].
      destruct (Nat.eq_dec k (length l')) as [->|Hne].
      * rewrite Hpl, Z.eqb_refl. rewrite nth_error_app2, Nat.sub_diag in Hk by lia. cbn in Hk. congruence.
      * assert (Hkl : (k < length l')%nat).
        { pose proof (nth_lt _ _ _ Hk). rewrite app_length in *. cbn [length] in *. lia. }
        rewrite nth_error_app1 in Hk by lia.
        rewrite pos_tail by lia.
        replace (pos (t x) (Z.of_nat k + 1) =? t x) with false.
        -- specialize (He (S k) e Hk). replace (Z.of_nat k + 1) with (Z.of_nat (S k)) by lia. exact He.
        -- symmetry. apply Z.eqb_neq. rewrite <- Hpl at 2. rewrite pos_tail by lia. intros Q. apply pos_inj in Q; lia.
  - rewrite newest_all by (rewrite app_length; cbn [length]; lia).
    assert (Hne : (t x =? pos (t x) n) = false).
    { unfold pos. cbv zeta. destruct (_ <? len) eqn:?; lia. }
    rewrite Hne. split.
    + cbn. exact Ht.
    + cbn. apply pos_range; lia.
    + rewrite app_length. cbn [length]. unfold get_used. cbn [h t set_arr]. rewrite Hne. unfold pos. cbv zeta.
      ifs; lia.
    + intros k e Hk. cbn [set_arr arr t h].
      destruct (Nat.eq_dec k (length l)) as [->|Hk2].
      * fold n. rewrite Z.eqb_refl. rewrite nth_error_app2, Nat.sub_diag in Hk by lia. cbn in Hk. congruence.
      * assert (Hkl : (k < length l)%nat).
        { pose proof (nth_lt _ _ _ Hk). rewrite app_length in *. cbn [length] in *. lia. }
        rewrite nth_error_app1 in Hk by lia.
        replace (pos (t x) (Z.of_nat k) =? pos (t x) n) with false; [apply He; exact Hk|].
        symmetry. apply Z.eqb_neq. intros Q. apply pos_inj in Q; lia.
Qed.

Definition small (m : Z) (l : list (Z * Z)) : Prop := Forall (fun e => snd e <= m) l.

Lemma put_ok x l pc m : rep x l -> small m l -> m < 2147483647 ->
  exists x', put len x pc = Ok x' /\ rep x' (newest (len - 1) (log l pc)).
Proof.
  intros R Hs Hm. unfold put. rewrite (rep_empty x l R).
  destruct (rev l) as [|[a n] r] eqn:Er.
  - assert (l = []) by (rewrite <- (rev_involutive l), Er; reflexivity). subst l. cbn [negb].
    eexists. split; [reflexivity|]. apply (append_ok x [] pc R).
  - assert (El : l = rev r ++ [(a, n)]) by (rewrite <- (rev_involutive l), Er; reflexivity).
    destruct l as [|e0 l0] eqn:Edl; [destruct (rev r); discriminate|]. rewrite <- Edl in *. clear Edl. cbn [negb].
    set (l1 := rev r) in *.
    assert (Hlast : arr x (h x) = Some (a, n)).
    { pose proof (used_pos x (rt _ _ R) (rh _ _ R)) as Hp. rewrite (rused _ _ R) in Hp.
      rewrite El, app_length in Hp. cbn [length] in Hp.
      replace (Z.of_nat (length l1 + 1) =? 0) with false in Hp by lia. rewrite Hp.
      replace (Z.of_nat (length l1 + 1) - 1) with (Z.of_nat (length l1)) by lia.
      apply (relem _ _ R). rewrite El. rewrite nth_error_app2, Nat.sub_diag by lia. reflexivity. }
    rewrite Hlast. rewrite El, log_app. destruct (a =? pc) eqn:Ea.
    + assert (n <= m). { unfold small in Hs. rewrite Forall_forall in Hs. apply (Hs (a, n)). rewrite El. apply in_or_app. right. left. reflexivity. }
      replace (n =? 2147483647) with false by lia. eexists. split; [reflexivity|].
      pose proof (rep_len x l R) as HL. rewrite El, app_length in HL. cbn [length] in HL.
      rewrite newest_all by (rewrite app_length; cbn [length]; lia).
      pose proof (used_pos x (rt _ _ R) (rh _ _ R)) as Hp. rewrite (rused _ _ R) in Hp.
      rewrite El, app_length in Hp. cbn [length] in Hp.
      replace (Z.of_nat (length l1 + 1) =? 0) with false in Hp by lia.
      replace (Z.of_nat (length l1 + 1) - 1) with (Z.of_nat (length l1)) in Hp by lia.
      destruct R as [Ht Hh Hu He]. split; cbn [set_arr t h arr]; auto.
      * unfold get_used in *. cbn [set_arr t h]. rewrite Hu. rewrite El, !app_length. reflexivity.
      * intros k e Hk. destruct (Nat.eq_dec k (length l1)) as [->|Hne].
        -- rewrite <- Hp, Z.eqb_refl. rewrite nth_error_app2, Nat.sub_diag in Hk by lia. cbn in Hk. congruence.
        -- assert (Hkl : (k < length l1)%nat).
           { pose proof (nth_lt _ _ _ Hk). rewrite app_length in *. cbn [length] in *. lia. }
           replace (pos (t x) (Z.of_nat k) =? h x) with false.
           ++ apply He. rewrite El. rewrite nth_error_app1 in * by lia. exact Hk.
           ++ symmetry. apply Z.eqb_neq. rewrite Hp. intros Q. apply pos_inj in Q; lia.
    + eexists. split; [reflexivity|]. rewrite <- El. apply (append_ok x l pc R).
Qed.

Lemma keep_step x e l : rep x (e :: l) -> rep (mkHist (h x) ((t x + 1) mod len) (arr x)) l.
Proof.
  intros [Ht Hh Hu He]. cbn [length] in Hu. split; cbn [t h arr].
  - apply Z.mod_pos_bound. lia.
  - exact Hh.
  - unfold get_used in *. cbn [t h]. rewrite mod_wrap by lia.
    ifs; lia.
  - intros k e' Hk. rewrite pos_tail.
    + specialize (He (S k) e' Hk). replace (Z.of_nat k + 1) with (Z.of_nat (S k)) by lia. exact He.
    + lia.
    + assert (k < length l)%nat by (apply nth_error_Some; congruence).
      pose proof (used_range x Ht Hh). lia.
Qed.

Lemma keep_loop_unfold n x nr : keep_loop len n x nr =
  if nr <? get_used len x then
    match n with O => UB | S k => keep_loop len k (mkHist (h x) ((t x + 1) mod len) (arr x)) nr end
  else Ok x.
Proof. destruct n; reflexivity. Qed.

Lemma keep_loop_ok l : forall n x nr, rep x l -> 0 <= nr -> (length l <= n)%nat ->
  exists x', keep_loop len n x nr = Ok x' /\ rep x' (newest nr l).
Proof.
  induction l as [|e l IH]; intros n x nr R Hn Hf; rewrite keep_loop_unfold, (rused _ _ R).
  - replace (nr <? Z.of_nat (length (@nil (Z * Z)))) with false by (cbn; lia).
    exists x. split; [reflexivity|]. rewrite newest_all by (cbn; lia). exact R.
  - destruct (nr <? Z.of_nat (length (e :: l))) eqn:E.
    + destruct n as [|n]; [cbn in Hf; lia|]. rewrite newest_cons by lia.
      apply IH; [apply (keep_step x e l R)|lia|cbn in Hf; lia].
    + exists x. split; [reflexivity|]. rewrite newest_all by lia. exact R.
Qed.

Lemma newest_neg {A} nr (l : list A) : nr <= 0 -> newest nr l = newest 0 l.
Proof. intros H. unfold newest. f_equal. lia. Qed.

Lemma keep_ok x l nr : rep x l -> exists x', keep len x nr = Ok x' /\ rep x' (newest nr l).
Proof.
  intros R. unfold keep. rewrite (rep_empty x l R). destruct l as [|e l].
  - exists x. split; [reflexivity|]. unfold newest. cbn. exact R.
  - set (m := if nr <? 0 then 0 else nr).
    destruct (keep_loop_ok (e :: l) (Z.to_nat len) x m R) as (x' & E & R').
    { unfold m. destruct (nr <? 0) eqn:?; lia. }
    { pose proof (rep_len _ _ R). lia. }
    exists x'. split; [exact E|]. replace (newest nr (e :: l)) with (newest m (e :: l)); [exact R'|].
    unfold m. destruct (nr <? 0) eqn:?; [|reflexivity]. symmetry. apply newest_neg. lia.
Qed.

Lemma small_newest m n l : small m l -> small m (newest n l).
Proof. unfold small, newest. intros H. rewrite <- (firstn_skipn (length l - Z.to_nat n) l) in H. apply Forall_app in H. apply H. Qed.

Lemma small_log m l pc : 0 <= m -> small m l -> small (m + 1) (log l pc).
Proof.
  intros Hm H. destruct (rev l) as [|[a n] r] eqn:Er.
  - assert (l = []) by (rewrite <- (rev_involutive l), Er; reflexivity). subst. repeat constructor. cbn. lia.
  - assert (El : l = rev r ++ [(a, n)]) by (rewrite <- (rev_involutive l), Er; reflexivity). subst l.
    rewrite log_app. unfold small in *. apply Forall_app in H. destruct H as [H1 H2]. apply Forall_inv in H2. cbn in H2.
    assert (H1' : Forall (fun e => snd e <= m + 1) (rev r)) by (eapply Forall_impl; [|exact H1]; cbn; intros; lia).
    destruct (a =? pc); apply Forall_app; split; auto.
    + repeat constructor. cbn. lia.
    + apply Forall_app. split; auto. repeat constructor. cbn. lia.
    + repeat constructor. cbn. lia.
Qed.

Lemma ops_ok ops : forall x l m, rep x l -> small m l -> 0 <= m -> m + Z.of_nat (length ops) <= 2147483647 ->
  exists x', do_hops len x ops = Ok x' /\ rep x' (fold_left (ideal_step (len - 1)) ops l).
Proof.
  induction ops as [|o ops IH]; intros x l m R Hs Hm Hlm; cbn [do_hops fold_left]; [eauto|].
  cbn [length] in Hlm. destruct o as [pc|nr]; cbn [do_hop].
  - destruct (put_ok x l pc m R Hs) as (x' & E & R'); [lia|]. rewrite E. cbn [rbind].
    apply (IH _ _ (m + 1)); [exact R'| |lia|lia]. apply small_newest, small_log; auto.
  - destruct (keep_ok x l nr R) as (x' & E & R'). rewrite E. cbn [rbind].
    apply (IH _ _ m); [exact R'|apply small_newest; exact Hs|lia|lia].
Qed.

(* ---- observers ---- *)
Lemma list_loop_ok l : forall n x j, rep x l -> (j < length l)%nat -> (length l - j <= n)%nat ->
  list_loop len n x (pos (t x) (Z.of_nat j)) = Ok (skipn j l).
Proof.
  induction n as [|n IH]; intros x j R Hj Hn; [lia|]. cbn [list_loop].
  pose proof (rep_len x l R) as HL.
  pose proof (pos_range (t x) (Z.of_nat j) (rt _ _ R) ltac:(lia)) as Hpr.
  replace ((0 <=? pos (t x) (Z.of_nat j)) && (pos (t x) (Z.of_nat j) <? len)) with true by lia.
  destruct (nth_error l j) as [e|] eqn:En; [|apply nth_error_None in En; lia].
  rewrite (relem _ _ R j e En).
  assert (Hsk : skipn j l = e :: skipn (S j) l).
  { clear -En. revert l En. induction j as [|j IH]; intros [|y l] En; try discriminate; cbn [skipn nth_error] in *; [congruence|]. apply IH. exact En. }
  pose proof (used_pos x (rt _ _ R) (rh _ _ R)) as Hp. rewrite (rused _ _ R) in Hp.
  replace (Z.of_nat (length l) =? 0) with false in Hp by lia.
  destruct (pos (t x) (Z.of_nat j) =? h x) eqn:Eh.
  - apply Z.eqb_eq in Eh. rewrite Hp in Eh. apply pos_inj in Eh; [|apply (rt _ _ R)|lia|lia].
    rewrite Hsk. rewrite skipn_all2 by lia. reflexivity.
  - assert (Hjn : (S j < length l)%nat).
    { destruct (Nat.eq_dec (S j) (length l)) as [Q|]; [|lia]. exfalso. apply Z.eqb_neq in Eh. apply Eh. rewrite Hp. f_equal. lia. }
    rewrite pos_next by (try apply (rt _ _ R); lia).
    replace (Z.of_nat j + 1) with (Z.of_nat (S j)) by lia. rewrite IH by (auto; lia).
    cbn [rbind]. rewrite Hsk. reflexivity.
Qed.

Lemma list_ok x l nr : rep x l -> 1 <= nr -> list_hist len x nr = Ok (newest nr l).
Proof.
  intros R Hnr. unfold list_hist. rewrite (rep_empty x l R).
  destruct l as [|e l0] eqn:El; [unfold newest; reflexivity|]. rewrite <- El in *.
  assert (Hl1 : (1 <= length l)%nat) by (rewrite El; cbn [length]; lia). clear El.
  pose proof (rep_len x l R) as HL. rewrite (rused _ _ R).
  set (m := if Z.of_nat (length l) <? (if len - 1 <? nr then len - 1 else nr) then Z.of_nat (length l) else (if len - 1 <? nr then len - 1 else nr)).
  assert (Hm : m = Z.min nr (Z.of_nat (length l))).
  { unfold m. ifs; lia. }
  assert (Hs : (let s := h x - m + 1 in if s <? 0 then s + len else s) = pos (t x) (Z.of_nat (length l) - m)).
  { pose proof (used_pos x (rt _ _ R) (rh _ _ R)) as Hp. rewrite (rused _ _ R) in Hp.
    replace (Z.of_nat (length l) =? 0) with false in Hp by lia. pose proof (rt _ _ R). pose proof (rh _ _ R).
    unfold pos in *. cbv zeta in *.
    ifs; try lia. }
  cbv zeta in Hs. cbv zeta. rewrite Hs.
  replace (Z.of_nat (length l) - m) with (Z.of_nat (length l - Z.to_nat nr)) by lia.
  rewrite (list_loop_ok l) by (auto; lia). reflexivity.
Qed.

Definition sumz (l : list (Z * Z)) : Z := fold_right (fun e s => snd e + s) 0 l.

Lemma insts_loop_ok l : forall n x j i, rep x l -> (j < length l)%nat -> (length l - j <= n)%nat ->
  insts_loop len n x (pos (t x) (Z.of_nat j)) i = Ok (u32 (i + sumz (skipn j l))).
Proof.
  induction n as [|n IH]; intros x j i R Hj Hn; [lia|]. cbn [insts_loop].
  pose proof (rep_len x l R) as HL.
  pose proof (pos_range (t x) (Z.of_nat j) (rt _ _ R) ltac:(lia)) as Hpr.
  replace ((0 <=? pos (t x) (Z.of_nat j)) && (pos (t x) (Z.of_nat j) <? len)) with true by lia.
  destruct (nth_error l j) as [[a e]|] eqn:En; [|apply nth_error_None in En; lia].
  rewrite (relem _ _ R j _ En).
  assert (Hsk : skipn j l = (a, e) :: skipn (S j) l).
  { clear -En. revert l En. induction j as [|j IH]; intros [|y l] En; try discriminate; cbn [skipn nth_error] in *; [congruence|]. apply IH. exact En. }
  pose proof (used_pos x (rt _ _ R) (rh _ _ R)) as Hp. rewrite (rused _ _ R) in Hp.
  replace (Z.of_nat (length l) =? 0) with false in Hp by lia.
  destruct (pos (t x) (Z.of_nat j) =? h x) eqn:Eh.
  - apply Z.eqb_eq in Eh. rewrite Hp in Eh. apply pos_inj in Eh; [|apply (rt _ _ R)|lia|lia].
    rewrite Hsk. rewrite skipn_all2 by lia. cbn [sumz fold_right snd]. do 2 f_equal. lia.
  - assert (Hjn : (S j < length l)%nat).
    { destruct (Nat.eq_dec (S j) (length l)) as [Q|]; [|lia]. exfalso. apply Z.eqb_neq in Eh. apply Eh. rewrite Hp. f_equal. lia. }
    rewrite pos_next by (try apply (rt _ _ R); lia).
    replace (Z.of_nat j + 1) with (Z.of_nat (S j)) by lia. rewrite IH by (auto; lia).
    rewrite Hsk. cbn [sumz fold_right snd]. fold (sumz (skipn (S j) l)). unfold u32. f_equal.
    rewrite Zplus_mod_idemp_l. f_equal. lia.
Qed.

Lemma insts_ok x l : rep x l -> get_insts len x = Ok (u32 (sumz l)).
Proof.
  intros R. unfold get_insts. rewrite (rep_empty x l R). destruct l as [|e l0] eqn:El; [reflexivity|]. rewrite <- El in *.
  pose proof (rep_len x l R) as HL.
  replace ((t x + 1) mod len) with (pos (t x) (Z.of_nat 0)).
  - rewrite (insts_loop_ok l) by (auto; try lia; rewrite El; cbn [length]; lia). reflexivity.
  - pose proof (rt _ _ R). rewrite mod_wrap by lia. unfold pos. cbv zeta.
    ifs; lia.
Qed.
End P.

(* ---- the ideal history is the tail of the run-length encoding ---- *)
Lemma newest_app_r {A} n (a b : list A) : n <= Z.of_nat (length b) -> newest n (a ++ b) = newest n b.
Proof.
  intros H. unfold newest. rewrite app_length.
  replace (length a + length b - Z.to_nat n)%nat with (length a + (length b - Z.to_nat n))%nat by lia.
  rewrite skipn_app. rewrite skipn_all2 by lia. cbn [app]. f_equal. lia.
Qed.

Lemma log_length_le l pc : (length l <= length (log l pc))%nat.
Proof.
  destruct (rev l) as [|[a n] r] eqn:Er.
  - assert (l = []) by (rewrite <- (rev_involutive l), Er; reflexivity). subst. cbn. lia.
  - assert (El : l = rev r ++ [(a, n)]) by (rewrite <- (rev_involutive l), Er; reflexivity). rewrite El, log_app.
    destruct (a =? pc); rewrite !app_length; cbn; lia.
Qed.

Lemma log_app_l a b pc : b <> [] -> log (a ++ b) pc = a ++ log b pc.
Proof.
  intros H. destruct (rev b) as [|[x n] r] eqn:Er.
  - exfalso. apply H. rewrite <- (rev_involutive b), Er. reflexivity.
  - assert (El : b = rev r ++ [(x, n)]) by (rewrite <- (rev_involutive b), Er; reflexivity). rewrite El.
    rewrite app_assoc, !log_app. destruct (x =? pc); rewrite ?app_assoc; reflexivity.
Qed.

Lemma newest_log n l pc : 1 <= n -> newest n (log (newest n l) pc) = newest n (log l pc).
Proof.
  intros Hn. destruct (Z_le_dec (Z.of_nat (length l)) n) as [H|H]; [rewrite (newest_all n l H); reflexivity|].
  set (k := (length l - Z.to_nat n)%nat).
  rewrite <- (firstn_skipn k l) at 2. unfold newest at 2. fold k.
  assert (Hl : length (skipn k l) = Z.to_nat n) by (rewrite skipn_length; lia).
  rewrite log_app_l by (intros Q; rewrite Q in Hl; cbn in Hl; lia).
  symmetry. apply newest_app_r. pose proof (log_length_le (skipn k l) pc). lia.
Qed.

Lemma ideal_rle cap trace : 1 <= cap -> ideal cap (List.map Put trace) = newest cap (rle trace).
Proof.
  intros Hc. unfold ideal, rle.
  assert (G : forall trace l, fold_left (ideal_step cap) (List.map Put trace) (newest cap l) = newest cap (fold_left log trace l)).
  { induction trace0 as [|pc tr IH]; intros l; cbn [List.map fold_left]; [reflexivity|].
    cbn [ideal_step]. rewrite newest_log by exact Hc. apply IH. }
  apply (G trace []).
Qed.
