From Verif Require Import Base FioModel ChrModel CmdModel CmdSpec CmdProofs CmdProofs2 CmdProofs3.

(** ** Finding a command *)
Lemma eqs_eq a b : eqs a b = true <-> a = b.
Proof.
  revert b. induction a as [|x a IH]; intros [|y b]; cbn [eqs]; try (split; congruence).
  rewrite andb_true_iff, Z.eqb_eq, IH. split; [intros [-> ->]; reflexivity|intros E; split; congruence].
Qed.
Lemma prefixb_app n x : prefixb n x = true <-> exists y, x = n ++ y.
Proof.
  revert x. induction n as [|a n IH]; intros x; cbn [prefixb].
  - split; [exists x; reflexivity|reflexivity].
  - destruct x as [|b x]; [split; [discriminate|intros [y E]; discriminate]|].
    rewrite andb_true_iff, Z.eqb_eq, IH. cbn [app]. split.
    + intros [-> [y ->]]. exists y. reflexivity.
    + intros [y E]. split; [congruence|exists y; congruence].
Qed.
Lemma strstr_0 x n : (match strstr x n with Some O => true | _ => false end) = prefixb n x.
Proof.
  destruct x as [|a x]; cbn [strstr].
  - destruct (prefixb n []); reflexivity.
  - destruct (prefixb n (a :: x)); [reflexivity|]. destruct (strstr x n); reflexivity.
Qed.
Lemma match_strict c n : name_match c (Some n) true = true <-> named c n.
Proof.
  cbn [name_match]. rewrite existsb_exists. unfold named. split.
  - intros [x [H1 H2]]. apply eqs_eq in H2. subst. exact H1.
  - intros H. exists n. split; [exact H|apply eqs_eq; reflexivity].
Qed.
Lemma match_loose c n : name_match c (Some n) false = true <-> named_like c n.
Proof.
  cbn [name_match]. rewrite existsb_exists. unfold named_like. split.
  - intros [x [H1 H2]]. rewrite strstr_0 in H2. apply prefixb_app in H2. destruct H2 as [y ->]. exists y. exact H1.
  - intros [y H]. exists (n ++ y). split; [exact H|]. rewrite strstr_0. apply prefixb_app. exists y. reflexivity.
Qed.
Lemma find_idx_some f l i : find_idx f l = Some i <->
  (exists c, nth_error l i = Some c /\ f c = true) /\
  (forall j c, (j < i)%nat -> nth_error l j = Some c -> f c = false).
Proof.
  revert i. induction l as [|c l IH]; intros i; cbn [find_idx].
  - split; [discriminate|]. intros [[c [H _]] _]. destruct i; discriminate.
  - destruct (f c) eqn:E.
    + split.
      * intros H. assert (i = O) by congruence. subst. split; [exists c; auto|]. intros j d Hj. lia.
      * intros [_ H]. destruct i as [|i]; [reflexivity|]. specialize (H O c ltac:(lia) eq_refl). congruence.
    + destruct i as [|i].
      * split; [destruct (find_idx f l); discriminate|]. intros [[d [H1 H2]] _]. cbn in H1. congruence.
      * specialize (IH i). split.
        -- intros H. destruct (find_idx f l) as [k|]; [|discriminate]. cbn in H.
           assert (k = i) by congruence. subst k. destruct (proj1 IH eq_refl) as [H1 H2].
           split; [exact H1|]. intros [|j] d Hj Hd; [cbn in Hd; congruence|]. apply (H2 j d); [lia|exact Hd].
        -- intros [H1 H2]. rewrite (proj2 IH); [reflexivity|]. split; [exact H1|].
           intros j d Hj Hd. apply (H2 (S j) d); [lia|exact Hd].
Qed.
Lemma find_idx_none f l : find_idx f l = None <-> forall c, In c l -> f c = false.
Proof.
  induction l as [|c l IH]; cbn [find_idx In]; [tauto|]. destruct (f c) eqn:E.
  - split; [discriminate|]. intros H. specialize (H c (or_introl eq_refl)). congruence.
  - destruct (find_idx f l).
    + split; [discriminate|]. intros H. assert (Some n = None) by (apply IH; auto). discriminate.
    + split; [|reflexivity]. intros _ d [<-|Hd]; [exact E|apply IH; auto].
Qed.
(** the not exact search, from position [k] on *)
Lemma loose_some n l : forall k i, loose (Some n) l k None = Some i <->
  exists j c, i = (k + j)%nat /\ nth_error l j = Some c /\ named_like c n /\
    forall j' c', nth_error l j' = Some c' -> named_like c' n -> j' = j.
Proof.
  assert (G : forall l k m, loose (Some n) l k (Some m) =
            if existsb (fun c => name_match c (Some n) false) l then None else Some m).
  { induction l0 as [|c l0 IH]; intros k m; cbn [loose existsb]; [reflexivity|].
    destruct (name_match c (Some n) false); [reflexivity|apply IH]. }
  induction l as [|c l IH]; intros k i; cbn [loose].
  - split; [discriminate|]. intros [j [c [_ [H _]]]]. destruct j; discriminate.
  - destruct (name_match c (Some n) false) eqn:E.
    + rewrite G. destruct (existsb (fun c => name_match c (Some n) false) l) eqn:Ex.
      * split; [discriminate|]. intros [j [d [_ [_ [_ H]]]]]. exfalso.
        apply existsb_exists in Ex. destruct Ex as [x [X1 X2]]. apply match_loose in X2.
        apply In_nth_error in X1. destruct X1 as [m X1].
        pose proof (H O c eq_refl (proj1 (match_loose c n) E)).
        pose proof (H (S m) x X1 X2). lia.
      * split.
        -- intros H. exists O, c. split; [assert (k = i) by congruence; lia|]. split; [reflexivity|].
           split; [apply match_loose; exact E|]. intros [|j'] c' Hc Hl; [reflexivity|]. exfalso.
           cbn [nth_error] in Hc. apply nth_error_In in Hc. apply match_loose in Hl.
           assert (existsb (fun c => name_match c (Some n) false) l = true) by (apply existsb_exists; eauto).
           congruence.
        -- intros [j [d [H1 [H2 [H3 H4]]]]]. f_equal. pose proof (H4 O c eq_refl (proj1 (match_loose c n) E)). lia.
    + rewrite IH. assert (Nc : ~ named_like c n).
      { intros Hl. apply match_loose in Hl. congruence. }
      split.
      * intros [j [d [H1 [H2 [H3 H4]]]]]. exists (S j), d. split; [lia|]. split; [exact H2|]. split; [exact H3|].
        intros [|j'] c' Hc Hl; [cbn in Hc; assert (c' = c) by congruence; subst; tauto|].
        f_equal. apply (H4 j' c' Hc Hl).
      * intros [[|j] [d [H1 [H2 [H3 H4]]]]].
        -- cbn in H2. assert (d = c) by congruence. subst. tauto.
        -- exists j, d. split; [lia|]. split; [exact H2|]. split; [exact H3|].
           intros j' c' Hc Hl. specialize (H4 (S j') c' Hc Hl). lia.
Qed.

(** ** Subcommands *)
Definition sub_of (w s : list Z) (items : list (item * list Z)) : command := mkCmd [] w s items.
Lemma sub_ok c w s items : ok_command c -> c_items c = (IWord w, s) :: items -> hd 0 w <> 10 ->
  ok_command (sub_of w s items).
Proof.
  intros [_ [_ [_ [Hb _]]]] E Hw. rewrite E in Hb. destruct Hb as [Hi [Hs [Hl Hn]]].
  unfold ok_command, sub_of. cbn [c_lead c_word c_sep c_items].
  split; [constructor|]. split; [|split; [exact Hs|split; [exact Hl|exact Hn]]].
  destruct Hi as [W1 [W2 _]]. unfold cmdname. auto.
Qed.
Lemma skip_word c : ok_command c ->
  skip_delims (written c) = c_word c ++ c_sep c ++ body (c_items c).
Proof.
  intros [Hl [Hn _]]. unfold written. rewrite skip_delims_app by exact Hl.
  destruct (cmdname_parts _ Hn) as [x [t [Ew [Hd _]]]]. rewrite Ew. cbn [app skip_delims]. rewrite Hd. reflexivity.
Qed.
Lemma after_word c : ok_command c ->
  skip_delims (skipn (strcspn (skip_delims (written c)) stops) (skip_delims (written c))) = body (c_items c).
Proof.
  intros H. rewrite skip_word by exact H. destruct H as [Hl [Hn [Hs [Hb Hsb]]]].
  destruct (cmdname_parts _ Hn) as [x [t [Ew [Hd [_ [_ [_ Hst]]]]]]].
  rewrite strcspn_word.
  - rewrite skipn_word. rewrite skip_delims_app by exact Hs.
    pose proof (body_clean (c_items c) End Hb) as E. cbn [tail] in E. rewrite app_nil_r in E. exact E.
  - exact Hst.
  - destruct (c_items c) as [|p l] eqn:E.
    + cbn [body]. apply stopped_sep; [exact Hs|right; exact I].
    + apply stopped_sep; [exact Hs|]. left. apply Hsb. congruence.
Qed.
Lemma written_nonempty c : ok_command c -> exists x t, skip_delims (written c) = x :: t.
Proof.
  intros H. rewrite skip_word by exact H. destruct H as [_ [Hn _]].
  destruct (cmdname_parts _ Hn) as [x [t [-> _]]]. exists x. eexists. reflexivity.
Qed.
Lemma shift_sub c w s items r : ok_command c -> c_items c = (IWord w, s) :: items -> hd 0 w <> 10 ->
  shift (line_of c r) = Ok (line_of (sub_of w s items) r).
Proof.
  intros H E Hw. unfold shift. cbn [line_of l_cmd l_rest].
  pose proof (after_word c H) as A. destruct (written_nonempty c H) as [x [t Ex]]. rewrite Ex in A |- *.
  rewrite A, E. cbn [body source].
  pose proof (split_written (sub_of w s items) End r (sub_ok c w s items H E Hw)) as Sp.
  cbn [tail] in Sp. rewrite app_nil_r in Sp.
  change (written (sub_of w s items)) with (w ++ s ++ body items) in Sp at 1. rewrite Sp. cbn [rbind line_of l_name sub_of c_word].
  assert (N : eqs w [10] = false).
  { destruct (eqs w [10]) eqn:Eq; [|reflexivity]. apply eqs_eq in Eq. subst w. cbn in Hw. congruence. }
  rewrite N. reflexivity.
Qed.
Lemma shift_none c r : ok_command c -> c_items c = [] ->
  shift (line_of c r) = Ok (mkL [] None r [] [] [] []).
Proof.
  intros H E. unfold shift. cbn [line_of l_cmd l_rest].
  pose proof (after_word c H) as A. destruct (written_nonempty c H) as [x [t Ex]]. rewrite Ex in A |- *.
  rewrite A, E. reflexivity.
Qed.
Lemma exec_plain set c : ok_command c -> quiet c ->
  exec set (written c) = rmap fst (step_cmd set (line_of c None)).
Proof.
  intros H Q. rewrite exec_unfold. rewrite parse_plain by exact H. cbn [rbind].
  destruct (step_cmd set (line_of c None)) as [[e l']| |] eqn:E; cbn [rbind rmap fst snd]; try reflexivity.
  destruct (written_quiet c H Q) as [N _].
  destruct (step_rest _ _ _ _ E) as [E1|[u [_ [U2 _]]]]; [|exfalso; apply N; exact U2].
  unfold rest_of. rewrite E1. reflexivity.
Qed.
Lemma quiet_sub c w s items : quiet c -> c_items c = (IWord w, s) :: items -> quiet (sub_of w s items).
Proof. unfold quiet. intros Q E. rewrite E in Q. cbn [sub_of c_items]. inversion Q; assumption. Qed.
Lemma step_super set c i id nm rp subs :
  get_cmd (Some (c_word c)) set = Some i -> nth_error set i = Some (Super id nm rp subs) ->
  step_cmd set (line_of c None) = work (Super id nm rp subs) (line_of c None).
Proof. intros E1 E2. unfold step_cmd. cbn [line_of l_name]. rewrite E1, E2. reflexivity. Qed.
Lemma exec_sub set c i id nm rp subs w s items j :
  ok_command c -> quiet c ->
  get_cmd (Some (c_word c)) set = Some i -> nth_error set i = Some (Super id nm rp subs) ->
  c_items c = (IWord w, s) :: items -> hd 0 w <> 10 ->
  get_cmd (Some w) subs = Some j ->
  exec set (written c) = exec subs (written (sub_of w s items)).
Proof.
  intros H Q E1 E2 E3 Hw E4.
  rewrite (exec_plain set c H Q).
  rewrite (exec_plain subs _ (sub_ok c w s items H E3 Hw) (quiet_sub c w s items Q E3)).
  rewrite (step_super set c i id nm rp subs E1 E2), work_super.
  rewrite (shift_sub c w s items None H E3 Hw). cbn [rbind].
  assert (Hn : have_real_name (line_of (sub_of w s items) None) = true).
  { unfold have_real_name. cbn [line_of l_name sub_of c_word]. destruct w; [|reflexivity].
    exfalso. destruct H as [_ [_ [_ [Hb _]]]]. rewrite E3 in Hb. destruct Hb as [[W1 _] _]. congruence. }
  rewrite Hn. cbn [negb]. unfold step_cmd. cbn [line_of l_name sub_of c_word]. rewrite E4. reflexivity.
Qed.
Lemma exec_sub_undef set c i id nm rp subs w s items :
  ok_command c -> quiet c ->
  get_cmd (Some (c_word c)) set = Some i -> nth_error set i = Some (Super id nm rp subs) ->
  c_items c = (IWord w, s) :: items -> hd 0 w <> 10 ->
  get_cmd (Some w) subs = None ->
  exec set (written c) = Ok [EUndef id (Some w)].
Proof.
  intros H Q E1 E2 E3 Hw E4.
  rewrite (exec_plain set c H Q).
  rewrite (step_super set c i id nm rp subs E1 E2), work_super.
  rewrite (shift_sub c w s items None H E3 Hw). cbn [rbind].
  assert (Hn : have_real_name (line_of (sub_of w s items) None) = true).
  { unfold have_real_name. cbn [line_of l_name sub_of c_word]. destruct w; [|reflexivity].
    exfalso. destruct H as [_ [_ [_ [Hb _]]]]. rewrite E3 in Hb. destruct Hb as [[W1 _] _]. congruence. }
  rewrite Hn. cbn [negb]. cbn [line_of l_name sub_of c_word]. rewrite E4. reflexivity.
Qed.
Lemma exec_no_sub set c i id nm rp subs :
  ok_command c ->
  get_cmd (Some (c_word c)) set = Some i -> nth_error set i = Some (Super id nm rp subs) ->
  c_items c = [] ->
  exec set (written c) =
    match get_exact no_parameters subs with
    | Some j => rmap fst (work_nth subs j (mkL [] None None [] [] [] []))
    | None => Ok [EList id]
    end.
Proof.
  intros H E1 E2 E3.
  rewrite (exec_plain set c H) by (unfold quiet; rewrite E3; constructor).
  rewrite (step_super set c i id nm rp subs E1 E2), work_super.
  rewrite (shift_none c None H E3). cbn [rbind have_real_name l_name negb].
  destruct (get_exact no_parameters subs); reflexivity.
Qed.

(** ** Lines that cannot go wrong *)
Definition calm (s : list Z) : Prop := ~ In 92 s /\ ~ In 36 s /\ ~ In 10 s /\ (~ In 62 s \/ ~ In 34 s).
Lemma calm_sub s u : calm s -> (forall x, In x u -> In x s) -> calm u.
Proof. intros [H1 [H2 [H3 H4]]] H. unfold calm. repeat split; [firstorder|firstorder|firstorder|]. destruct H4; firstorder. Qed.
Lemma scan_in s x : In x (fst (scan_str s)) -> In x s.
Proof.
  enough (H : forall n s, (length s <= n)%nat -> In x (fst (scan_str s)) -> In x s) by (apply (H (length s)); lia).
  clear s. induction n as [|n IH]; intros [|c t] H; cbn [length] in H; try lia; [tauto|tauto|].
  cbn [scan_str]. destruct (c =? 34); [intros []|]. destruct (c =? 92).
  - destruct t as [|d u]; [cbn [fst In]; tauto|]. cbn [fst In length] in *. intros [Hx|[Hx|Hx]]; [auto|auto|].
    right. right. apply IH; [lia|exact Hx].
  - cbn [fst In]. intros [Hx|Hx]; [auto|]. right. apply IH; [lia|exact Hx].
Qed.
Lemma calm_expand s : calm s -> expand s = Ok [].
Proof. intros [H1 [H2 _]]. apply expand_calm. right. tauto. Qed.
Lemma firstn_in {A} n (s : list A) x : In x (firstn n s) -> In x s.
Proof. intros H. rewrite <- (firstn_skipn n s). apply in_or_app. left. exact H. Qed.
Lemma loop_calm : forall k s a, clean s -> (length s < k)%nat -> calm s -> exists r, split_loop k s a = Ok r.
Proof.
  induction k as [|k IH]; intros s a Hc H C; [lia|]. cbn [split_loop].
  destruct s as [|c t]; [eauto|]. cbn [length] in H. cbn [clean] in Hc.
  destruct (c =? 35) eqn:E35; [eauto|]. destruct (c =? 59) eqn:E59; [eauto|].
  assert (Ct : calm t) by (eapply calm_sub; [exact C|intros x Hx; right; exact Hx]).
  destruct (c =? 34) eqn:E34.
  - rewrite calm_expand by (eapply calm_sub; [exact Ct|apply scan_in]). cbn [rbind].
    assert (Sf : suffix (skip_delims (tl (snd (scan_str t)))) t).
    { eapply suffix_trans; [apply suffix_skip|]. eapply suffix_trans; [apply suffix_tl|apply suffix_scan]. }
    apply IH; [apply clean_skip| |eapply calm_sub; [exact Ct|intros x; apply suffix_in; exact Sf]].
    apply suffix_len in Sf. lia.
  - destruct (c =? 62) eqn:E62.
    + assert (N34 : ~ In 34 t).
      { destruct C as [_ [_ [_ [C|C]]]]; [exfalso; apply C; left; lia|]. intros Hx. apply C. right. exact Hx. }
      set (ms := match t with
                 | [] => (119, t)
                 | d :: u => if d =? 62 then (97, u) else (119, t)
                 end).
      assert (S1 : suffix (snd ms) t).
      { unfold ms. destruct t as [|d u]; [apply suffix_refl|].
        destruct (d =? 62); cbn [snd]; [exists [d]; reflexivity|apply suffix_refl]. }
      destruct ms as [m s1]. cbn [snd] in S1.
      assert (T : exists r f, token_rest s1 = Ok r /\ get_token s1 = Ok f).
      { destruct s1 as [|d u]; cbn [token_rest get_token]; [eauto|].
        assert (d <> 34). { intros ->. apply N34. eapply suffix_in; [exact S1|left; reflexivity]. }
        replace (d =? 34) with false by lia. eauto. }
      destruct T as [r [f [T1 T2]]]. rewrite T1, T2. cbn [rbind].
      apply suffix_token in T1.
      assert (Sf : suffix (skip_delims r) t).
      { eapply suffix_trans; [apply suffix_skip|]. eapply suffix_trans; eassumption. }
      apply IH; [apply clean_skip| |eapply calm_sub; [exact Ct|intros x; apply suffix_in; exact Sf]].
      apply suffix_len in Sf. lia.
    + rewrite calm_expand by (eapply calm_sub; [exact C|intros x; apply firstn_in]). cbn [rbind].
      pose proof (skip_delims_len (skipn (strcspn (c :: t) stops) (c :: t))) as Ln.
      rewrite skipn_length in Ln. pose proof (strcspn_pos c t (clean_stop c Hc ltac:(lia) ltac:(lia))).
      cbn [length] in Ln.
      apply IH; [apply clean_skip|lia|].
      eapply calm_sub; [exact C|]. intros x. apply suffix_in. eapply suffix_trans; [apply suffix_skip|apply suffix_skipn].
Qed.
Lemma split_calm p : calm p -> exists l, split p None = Ok l.
Proof.
  intros C. unfold split. destruct p as [|x p]; [eauto|]. rewrite strspn_skip.
  pose proof (suffix_skip (x :: p)) as Sk. destruct (skip_delims (x :: p)) as [|c t]; [eauto|].
  destruct (c =? 10); [eauto|]. destruct (c =? 35); [eauto|]. destruct (c =? 59); [eauto|].
  assert (Sf : suffix (skip_delims (skipn (strcspn (c :: t) stops) (c :: t))) (c :: t)).
  { eapply suffix_trans; [apply suffix_skip|apply suffix_skipn]. }
  destruct (loop_calm (S (length (c :: t))) _ acc0 (clean_skip (skipn (strcspn (c :: t) stops) (c :: t)))) as [[a f] E].
  - apply suffix_len in Sf. lia.
  - eapply calm_sub; [exact C|]. intros y Hy. eapply suffix_in; [exact Sk|]. eapply suffix_in; [exact Sf|exact Hy].
  - rewrite E. cbn [rbind]. eauto.
Qed.
(** what is behind the first word of the kept text does not begin with ; or # *)
Definition after_first (s : list Z) : list Z :=
  skip_delims (skipn (strcspn (skip_delims s) stops) (skip_delims s)).
Definition J (s : list Z) : Prop :=
  match after_first s with [] => True | c :: _ => c <> 35 /\ c <> 59 end.
Lemma skip_sep s : sep s -> skip_delims s = [].
Proof. intros H. rewrite <- (app_nil_r s). rewrite skip_delims_app by exact H. reflexivity. Qed.
Lemma word_split s : clean s -> exists w u, s = w ++ u /\ Forall (fun c => memc stops c = false) w /\ stopped u /\
  strcspn s stops = length w /\ skipn (strcspn s stops) s = u.
Proof.
  intros _. induction s as [|c s IH].
  - exists [], []. repeat split; constructor.
  - cbn [strcspn]. destruct (memc stops c) eqn:E.
    + exists [], (c :: s). repeat split; [constructor|exact E].
    + destruct IH as [w [u [H1 [H2 [H3 [H4 H5]]]]]]. exists (c :: w), u. rewrite H4.
      split; [rewrite H1; reflexivity|]. split; [constructor; assumption|]. split; [exact H3|]. split; [reflexivity|].
      cbn [skipn]. rewrite <- H4. exact H5.
Qed.
Lemma J_build d w e v : sep d -> (exists c t, w = c :: t /\ memc delims c = false) ->
  Forall (fun c => memc stops c = false) w -> sep e -> (e <> [] \/ v = []) ->
  (v = [] \/ (clean v /\ hd 0 v <> 35 /\ hd 0 v <> 59)) -> J (d ++ w ++ e ++ v).
Proof.
  intros Hd [c [t [Ew Hc]]] Hw He Hev Hv. unfold J, after_first.
  rewrite skip_delims_app by exact Hd.
  assert (E1 : skip_delims (w ++ e ++ v) = w ++ e ++ v) by (rewrite Ew; cbn [app skip_delims]; rewrite Hc; reflexivity).
  assert (St : stopped (e ++ v)).
  { apply stopped_sep; [exact He|]. destruct Hev as [Hev|Hev]; [left; exact Hev|right; subst v; exact I]. }
  rewrite E1. rewrite strcspn_word by assumption.
  rewrite skipn_word, skip_delims_app by exact He.
  destruct v as [|x v]; [exact I|]. destruct Hv as [Hv|[V1 [V2 V3]]]; [discriminate|].
  cbn [clean] in V1. cbn [skip_delims]. rewrite V1. cbn [hd] in V2, V3. auto.
Qed.
Lemma split_J p l : ~ In 10 p -> split p None = Ok l -> J (l_cmd l).
Proof.
  intros N10 E. unfold split in E. destruct p as [|x p].
  { assert (l = mkL [] (Some [10]) None [] [] [] []) by congruence. subst. exact I. }
  rewrite strspn_skip in E. destruct (skip_delims_suffix (x :: p)) as [d [Hd Ed]].
  pose proof (clean_skip (x :: p)) as Cl.
  destruct (skip_delims (x :: p)) as [|c t] eqn:Es.
  { match type of E with Ok ?y = _ => assert (l = y) by congruence end. subst. cbn [l_cmd].
    unfold J, after_first. rewrite Es. exact I. }
  assert (Hc10 : c <> 10).
  { intros ->. apply N10. rewrite Ed. apply in_or_app. right. left. reflexivity. }
  replace (c =? 10) with false in E by lia.
  assert (Jd : J d).
  { unfold J, after_first. rewrite (skip_sep d Hd). exact I. }
  destruct (c =? 35) eqn:E35.
  { match type of E with Ok ?y = _ => assert (l = y) by congruence end. subst. cbn [l_cmd].
    rewrite Ed, cut_cmd_app. exact Jd. }
  destruct (c =? 59) eqn:E59.
  { match type of E with Ok ?y = _ => assert (l = y) by congruence end. subst. cbn [l_cmd].
    rewrite Ed, cut_cmd_app. exact Jd. }
  destruct (word_split (c :: t) Cl) as [w [u [Ew [Hw [Hu [En Eu]]]]]]. rewrite Eu in E.
  destruct (skip_delims_suffix u) as [e [He Ee]].
  destruct (split_loop (S (length (c :: t))) (skip_delims u) acc0) as [[a f]| |] eqn:El; cbn [rbind] in E; try discriminate.
  match type of E with Ok ?y = _ => assert (El' : l = y) by congruence end. subst l. cbn [l_cmd]. clear E.
  assert (W : exists c t, w = c :: t /\ memc delims c = false).
  { destruct w as [|y w].
    - exfalso. cbn [app] in Ew. subst u. cbn [stopped] in Hu. cbn [clean] in Cl.
      rewrite (clean_stop c Cl) in Hu by lia. discriminate.
    - exists y, w. split; [reflexivity|]. cbn [app] in Ew. assert (y = c) by congruence. subst y. exact Cl. }
  pose proof (clean_skip u) as Cu.
  set (r0 := skip_delims u) in *.
  assert (Fs : exists v z, r0 = v ++ z /\
     (match f with FEnd => z = [] | FComment q => z = q | FMore q => z = 59 :: q end) /\
     (v = [] \/ (clean v /\ hd 0 v <> 35 /\ hd 0 v <> 59))).
  { assert (Hf := loop_fin _ _ _ _ _ El).
    assert (H35 : forall q, r0 = 35 :: q -> f = FComment (35 :: q)).
    { intros q Eq. rewrite Eq in El. cbn in El. congruence. }
    assert (H59 : forall q, r0 = 59 :: q -> f = FMore q).
    { intros q Eq. rewrite Eq in El. cbn in El. congruence. }
    assert (G : exists v z, r0 = v ++ z /\
     (match f with FEnd => z = [] | FComment q => z = q | FMore q => z = 59 :: q end)).
    { destruct f as [|q|q]; cbn [fin_in] in Hf.
      - exists r0, []. rewrite app_nil_r. auto.
      - destruct Hf as [[v Hv] _]. exists v, q. auto.
      - destruct Hf as [v Hv]. exists v, (59 :: q). auto. }
    destruct G as [v [z [G1 G2]]]. exists v, z. split; [exact G1|]. split; [exact G2|].
    destruct v as [|y v]; [left; reflexivity|]. right. rewrite G1 in Cu. cbn [app clean] in Cu.
    split; [exact Cu|]. cbn [hd].
    assert (K : forall q, f = FComment (y :: q) -> r0 = y :: q -> False).
    { intros q Hq1 Hq2. rewrite Hq1 in G2. subst z. rewrite Hq2 in G1. cbn [app] in G1.
      apply (f_equal (@length Z)) in G1. cbn [length] in G1. rewrite app_length in G1. cbn [length] in G1. lia. }
    split; intros ->.
    - eapply K; [apply H35|]; rewrite G1; reflexivity.
    - assert (Hq : f = FMore (v ++ z)) by (apply H59; rewrite G1; reflexivity).
      rewrite Hq in G2. apply (f_equal (@length Z)) in G2. cbn [length] in G2. rewrite app_length in G2. lia. }
  destruct Fs as [v [z [F1 [F2 F3]]]].
  assert (Ep : x :: p = (d ++ w ++ e ++ v) ++ z).
  { rewrite Ed, Ew, Ee, F1. rewrite <- !app_assoc. reflexivity. }
  assert (Hev : e <> [] \/ v = []).
  { destruct e as [|y e]; [|left; discriminate]. right. cbn [app] in Ee.
    destruct v as [|y v]; [reflexivity|]. exfalso.
    rewrite F1 in Ee. rewrite Ee in Hu. cbn [app stopped] in Hu.
    destruct F3 as [F3|[F3 [F4 F5]]]; [discriminate|]. cbn [clean hd] in F3, F4, F5.
    rewrite clean_stop in Hu by assumption. discriminate. }
  assert (Jv : J (d ++ w ++ e ++ v)) by (apply J_build; assumption).
  destruct f as [|q|q]; subst z; rewrite Ep.
  - rewrite app_nil_r. exact Jv.
  - rewrite cut_cmd_app. exact Jv.
  - rewrite cut_cmd_app. exact Jv.
Qed.
Lemma split_named p l : clean p -> p <> [] -> hd 0 p <> 35 -> hd 0 p <> 59 -> split p None = Ok l -> l_name l <> None.
Proof.
  intros Cl Hn H1 H2 E. unfold split in E. destruct p as [|c t]; [congruence|]. cbn [hd clean] in *.
  rewrite strspn_skip in E. cbn [skip_delims] in E. rewrite Cl in E.
  destruct (c =? 10).
  { match type of E with Ok ?y = _ => assert (l = y) by congruence end. subst. discriminate. }
  replace (c =? 35) with false in E by lia. replace (c =? 59) with false in E by lia.
  destruct (split_loop (S (length (c :: t))) (skip_delims (skipn (strcspn (c :: t) stops) (c :: t))) acc0)
    as [[a f]| |]; cbn [rbind] in E; try discriminate.
  match type of E with Ok ?y = _ => assert (l = y) by congruence end. subst. discriminate.
Qed.
Lemma shift_calm l : calm (l_cmd l) -> J (l_cmd l) ->
  exists n, shift l = Ok n /\ J (l_cmd n).
Proof.
  intros C Hj. unfold shift. unfold J, after_first in Hj.
  pose proof (suffix_skip (l_cmd l)) as S1.
  destruct (skip_delims (l_cmd l)) as [|c t] eqn:Es.
  { eexists. split; [reflexivity|]. cbn [l_cmd]. unfold J, after_first. rewrite Es. exact I. }
  set (p := skip_delims (skipn (strcspn (c :: t) stops) (c :: t))) in *.
  assert (Sp : suffix p (l_cmd l)).
  { eapply suffix_trans; [apply suffix_skip|]. eapply suffix_trans; [apply suffix_skipn|exact S1]. }
  assert (Cp : calm p) by (eapply calm_sub; [exact C|intros x; apply suffix_in; exact Sp]).
  destruct (split_calm p Cp) as [m Em]. rewrite split_r, Em. cbn [rbind].
  assert (Nm : l_name m <> None).
  { destruct p as [|y q] eqn:Ep.
    - cbn in Em. assert (m = mkL [] (Some [10]) None [] [] [] []) by congruence. subst. discriminate.
    - apply (split_named (y :: q) m); try exact Em; try apply Hj; [|discriminate].
      rewrite <- Ep. apply clean_skip. }
  assert (Jm : J (l_cmd m)) by (apply (split_J p m); [apply Cp|exact Em]).
  destruct (l_rest m); cbn [with_rest l_name];
    (destruct (l_name m) as [nm|] eqn:En; [|congruence]); eexists; (split; [reflexivity|exact Jm]).
Qed.
Lemma work_calm c : forall l, calm (l_cmd l) -> J (l_cmd l) -> exists r, work c l = Ok r.
Proof.
  induction c as [id nm rp|id nm rp subs IH] using cmd_ind2; intros l C Hj; [eexists; reflexivity|].
  rewrite work_super. destruct (shift_calm l C Hj) as [n [En Jn]]. rewrite En. cbn [rbind].
  assert (Cn : calm (l_cmd n)).
  { eapply calm_sub; [exact C|]. apply (shift_parts _ _ En). }
  assert (W : forall i, exists r, work_nth subs i n = Ok r).
  { intros i. unfold work_nth. destruct (nth_error subs i) as [c|] eqn:Ec; [|eexists; reflexivity].
    rewrite Forall_forall in IH. apply (IH c (nth_error_In _ _ Ec)); assumption. }
  destruct (negb (have_real_name n)).
  - destruct (get_exact no_parameters subs); [apply W|eexists; reflexivity].
  - destruct (get_cmd (l_name n) subs); [apply W|eexists; reflexivity].
Qed.
Lemma parse_calm line : calm line -> exists l, parse line = Ok l /\ calm (l_cmd l) /\ J (l_cmd l).
Proof.
  intros C. destruct (split_calm line C) as [l E]. exists l. split; [exact E|].
  destruct (split_parts _ _ E) as [[x Hx] _]. split.
  - eapply calm_sub; [exact C|]. intros y Hy. rewrite Hx. apply in_or_app. left. exact Hy.
  - eapply split_J; [apply C|exact E].
Qed.
Lemma exec_calm set : forall n line, (length line <= n)%nat -> calm line -> exists es, exec set line = Ok es.
Proof.
  induction n as [|n IH]; intros line H C.
  - destruct line; [|cbn in H; lia]. rewrite exec_unfold.
    destruct (parse_calm [] C) as [l [E1 [C1 J1]]]. rewrite E1. cbn [rbind].
    assert (W : exists r, step_cmd set l = Ok r).
    { unfold step_cmd. destruct (get_cmd (l_name l) set); [|eauto]. destruct (nth_error set n); [|eauto].
      apply work_calm; assumption. }
    destruct W as [[e l'] E2]. rewrite E2. cbn [rbind fst snd].
    destruct (rest_shorter _ _ _ _ _ E1 E2) as [[D|D] _]; [rewrite D; eauto|cbn in D; lia].
  - rewrite exec_unfold. destruct (parse_calm line C) as [l [E1 [C1 J1]]]. rewrite E1. cbn [rbind].
    assert (W : exists r, step_cmd set l = Ok r).
    { unfold step_cmd. destruct (get_cmd (l_name l) set); [|eauto]. destruct (nth_error set n0); [|eauto].
      apply work_calm; assumption. }
    destruct W as [[e l'] E2]. rewrite E2. cbn [rbind fst snd].
    destruct (rest_shorter _ _ _ _ _ E1 E2) as [D1 D2].
    destruct (rest_of l') as [|x t] eqn:Er; [eauto|].
    destruct D1 as [D1|D1]; [discriminate|].
    destruct (IH (x :: t)) as [es Ees]; [lia|eapply calm_sub; [exact C|exact D2]|].
    rewrite Ees. cbn [rbind]. eauto.
Qed.
