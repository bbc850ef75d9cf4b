From Verif Require Import Base FioModel ChrModel CmdModel CmdSpec CmdProofs CmdProofs2.

(** ** Suffixes *)
Definition suffix (u s : list Z) : Prop := exists p, s = p ++ u.
Lemma suffix_refl s : suffix s s.
Proof. exists []. reflexivity. Qed.
Lemma suffix_trans u v s : suffix u v -> suffix v s -> suffix u s.
Proof. intros [p ->] [q ->]. exists (q ++ p). apply app_assoc. Qed.
Lemma suffix_cons c u s : suffix u s -> suffix u (c :: s).
Proof. intros [p ->]. exists (c :: p). reflexivity. Qed.
Lemma suffix_skipn n s : suffix (skipn n s) s.
Proof. exists (firstn n s). symmetry. apply firstn_skipn. Qed.
Lemma suffix_skip s : suffix (skip_delims s) s.
Proof. destruct (skip_delims_suffix s) as [p [_ H]]. exists p. exact H. Qed.
Lemma suffix_tl s : suffix (tl s) s.
Proof. destruct s as [|c s]; [apply suffix_refl|]. exists [c]. reflexivity. Qed.
Lemma suffix_len u s : suffix u s -> (length u <= length s)%nat.
Proof. intros [p ->]. rewrite app_length. lia. Qed.
Lemma suffix_in u s x : suffix u s -> In x u -> In x s.
Proof. intros [p ->] H. apply in_or_app. right. exact H. Qed.
Lemma suffix_scan s : suffix (snd (scan_str s)) s.
Proof.
  enough (H : forall n s, (length s <= n)%nat -> suffix (snd (scan_str s)) s) by (apply (H (length s)); lia).
  clear s. induction n as [|n IH]; intros [|c t] H; cbn [length] in H; try lia; try apply suffix_refl.
  cbn [scan_str]. destruct (c =? 34); [apply suffix_refl|]. destruct (c =? 92).
  - destruct t as [|d u]; [exists [c]; reflexivity|]. cbn [snd]. cbn [length] in H.
    apply suffix_cons, suffix_cons, IH. lia.
  - cbn [snd]. apply suffix_cons, IH. lia.
Qed.
Lemma suffix_quoted s r : quoted_rest s = Ok r -> suffix r s.
Proof.
  enough (H : forall n s r, (length s <= n)%nat -> quoted_rest s = Ok r -> suffix r s) by (apply (H (length s)); lia).
  clear s r. induction n as [|n IH]; intros [|c t] r H E; cbn [length] in H; try lia; cbn [quoted_rest] in E; try discriminate.
  destruct (c =? 34); [assert (t = r) by congruence; subst; exists [c]; reflexivity|].
  destruct (c =? 92).
  - destruct t as [|d [|e u]]; try discriminate. cbn [length] in H.
    apply suffix_cons, suffix_cons, suffix_cons, IH; [lia|exact E].
  - apply suffix_cons, IH; [lia|exact E].
Qed.
Lemma suffix_token s r : token_rest s = Ok r -> suffix r s.
Proof.
  destruct s as [|c t]; cbn [token_rest]; intros E; [assert (r = []) by congruence; subst; apply suffix_refl|].
  destruct (c =? 34); [apply suffix_cons, suffix_quoted, E|].
  remember (skipn (strcspn (c :: t) tok_stops) (c :: t)) as x. assert (r = x) by congruence. subst.
  apply suffix_skipn.
Qed.
Definition fin_in (f : fin) (s : list Z) : Prop :=
  match f with
  | FEnd => True
  | FComment u => suffix u s /\ exists v, u = 35 :: v
  | FMore u => suffix (59 :: u) s
  end.
Lemma fin_suffix f u s : fin_in f u -> suffix u s -> fin_in f s.
Proof.
  destruct f as [|v|v]; cbn [fin_in]; intros H1 H2; [exact I| |].
  - destruct H1 as [H1 H3]. split; [eapply suffix_trans; eassumption|exact H3].
  - eapply suffix_trans; eassumption.
Qed.
Lemma loop_fin : forall k s a a' f, split_loop k s a = Ok (a', f) -> fin_in f s.
Proof.
  induction k as [|k IH]; intros s a a' f E; cbn [split_loop] in E; [discriminate|].
  destruct s as [|c t]; [assert (f = FEnd) by congruence; subst; exact I|].
  destruct (c =? 35) eqn:E35.
  { assert (f = FComment (c :: t)) by congruence. subst. split; [apply suffix_refl|].
    exists t. f_equal. lia. }
  destruct (c =? 59) eqn:E59.
  { assert (f = FMore t) by congruence. subst. cbn [fin_in]. exists []. cbn. f_equal. lia. }
  destruct (c =? 34).
  - destruct (expand (fst (scan_str t))); cbn [rbind] in E; try discriminate.
    apply IH in E. eapply fin_suffix; [exact E|].
    eapply suffix_trans; [apply suffix_skip|]. eapply suffix_trans; [apply suffix_tl|].
    apply suffix_cons, suffix_scan.
  - destruct (c =? 62).
    + set (ms := match t with
                 | [] => (119, t)
                 | d :: u => if d =? 62 then (97, u) else (119, t)
                 end) in E.
      assert (S1 : suffix (snd ms) (c :: t)).
      { unfold ms. apply suffix_cons. destruct t as [|d u]; [apply suffix_refl|].
        destruct (d =? 62); cbn [snd]; [exists [d]; reflexivity|apply suffix_refl]. }
      destruct ms as [m s1]. cbn [snd] in S1.
      destruct (token_rest s1) as [r| |] eqn:Er; cbn [rbind] in E; try discriminate.
      destruct (get_token s1); cbn [rbind] in E; try discriminate.
      apply IH in E. eapply fin_suffix; [exact E|]. eapply suffix_trans; [apply suffix_skip|].
      eapply suffix_trans; [apply suffix_token; exact Er|exact S1].
    + destruct (expand (firstn (strcspn (c :: t) stops) (c :: t))); cbn [rbind] in E; try discriminate.
      apply IH in E. eapply fin_suffix; [exact E|]. eapply suffix_trans; [apply suffix_skip|apply suffix_skipn].
Qed.

(** ** The rest of the line *)
Lemma split_r p r : split p r =
  (l <- split p None ;; Ok (match l_rest l with Some _ => l | None => with_rest r l end)).
Proof.
  unfold split. destruct p as [|x p]; [reflexivity|].
  set (s := skipn (strspn (x :: p) delims) (x :: p)). destruct s as [|c t]; [reflexivity|].
  destruct (c =? 10); [reflexivity|]. destruct (c =? 35); [reflexivity|]. destruct (c =? 59); [reflexivity|].
  destruct (split_loop (S (length (c :: t))) (skip_delims (skipn (strcspn (c :: t) stops) (c :: t))) acc0)
    as [[a f]| |]; cbn [rbind]; try reflexivity.
  destruct f; reflexivity.
Qed.
Lemma cut_cmd_suffix p u : suffix u p -> exists q, p = q ++ u /\ cut_cmd p u = q.
Proof. intros [q ->]. exists q. split; [reflexivity|apply cut_cmd_app]. Qed.
(** the command that is kept is a prefix of the text, the rest is behind a semicolon *)
Lemma split_parts p l : split p None = Ok l ->
  (exists x, p = l_cmd l ++ x) /\
  match l_rest l with None => True | Some u => suffix (59 :: u) p end.
Proof.
  unfold split. destruct p as [|x p]; intros E.
  { assert (l = mkL [] (Some [10]) None [] [] [] []) by congruence. subst. cbn. split; [exists []; reflexivity|exact I]. }
  rewrite strspn_skip in E. pose proof (suffix_skip (x :: p)) as Sk.
  destruct (skip_delims (x :: p)) as [|c t].
  { match type of E with Ok ?y = _ => assert (l = y) by congruence end. subst. cbn. split; [exists []; rewrite app_nil_r; reflexivity|exact I]. }
  destruct (c =? 10).
  { match type of E with Ok ?y = _ => assert (l = y) by congruence end. subst. cbn. split; [exists []; rewrite app_nil_r; reflexivity|exact I]. }
  destruct (c =? 35) eqn:E35.
  { match type of E with Ok ?y = _ => assert (l = y) by congruence end. subst. cbn [l_cmd l_rest].
    destruct (cut_cmd_suffix _ _ Sk) as [q [H1 H2]]. rewrite H2. split; [eexists; exact H1|exact I]. }
  destruct (c =? 59) eqn:E59.
  { match type of E with Ok ?y = _ => assert (l = y) by congruence end. subst. cbn [l_cmd l_rest].
    destruct (cut_cmd_suffix _ _ Sk) as [q [H1 H2]]. rewrite H2. split; [eexists; exact H1|].
    replace 59 with c by lia. exact Sk. }
  destruct (split_loop (S (length (c :: t))) (skip_delims (skipn (strcspn (c :: t) stops) (c :: t))) acc0)
    as [[a f]| |] eqn:El; cbn [rbind] in E; try discriminate.
  apply loop_fin in El.
  assert (F : fin_in f (x :: p)).
  { eapply fin_suffix; [exact El|]. eapply suffix_trans; [apply suffix_skip|].
    eapply suffix_trans; [apply suffix_skipn|exact Sk]. }
  match type of E with Ok ?y = _ => assert (l = y) by congruence end. subst l. cbn [l_cmd l_rest].
  destruct f as [|u|u]; cbn [fin_in] in F.
  - split; [exists []; rewrite app_nil_r; reflexivity|exact I].
  - destruct F as [F _]. destruct (cut_cmd_suffix _ _ F) as [q [H1 H2]]. rewrite H2. split; [eexists; exact H1|exact I].
  - destruct (cut_cmd_suffix _ _ F) as [q [H1 H2]]. rewrite H2. split; [eexists; exact H1|exact F].
Qed.
Lemma with_rest_rest r l : l_rest (with_rest r l) = r.
Proof. reflexivity. Qed.
Lemma with_rest_id l : with_rest (l_rest l) l = l.
Proof. destruct l. reflexivity. Qed.
Lemma with_rest_twice r r' l : with_rest r (with_rest r' l) = with_rest r l.
Proof. reflexivity. Qed.

(** after a shift the command line is a suffix of the old one *)
Lemma shift_parts l n : shift l = Ok n ->
  (length (l_cmd n) <= length (l_cmd l))%nat /\ (forall x, In x (l_cmd n) -> In x (l_cmd l)) /\
  (l_rest n = l_rest l \/
   exists u, l_rest n = Some u /\ In 59 (l_cmd l) /\ (length u < length (l_cmd l))%nat /\
             (forall x, In x u -> In x (l_cmd l))).
Proof.
  unfold shift. pose proof (suffix_skip (l_cmd l)) as S1.
  destruct (skip_delims (l_cmd l)) as [|c t]; intros E.
  { match type of E with Ok ?y = _ => assert (n = y) by congruence end. subst. cbn [l_cmd l_rest]. auto. }
  set (p := skip_delims (skipn (strcspn (c :: t) stops) (c :: t))) in E.
  assert (Sp : suffix p (l_cmd l)).
  { eapply suffix_trans; [apply suffix_skip|]. eapply suffix_trans; [apply suffix_skipn|exact S1]. }
  rewrite split_r in E. destruct (split p None) as [m| |] eqn:Em; cbn [rbind] in E; try discriminate.
  destruct (split_parts _ _ Em) as [[x Hx] Hr].
  assert (Hcmd : (length (l_cmd m) <= length (l_cmd l))%nat /\ (forall y, In y (l_cmd m) -> In y (l_cmd l))).
  { split.
    - apply suffix_len in Sp. rewrite Hx, app_length in Sp. lia.
    - intros y Hy. eapply suffix_in; [exact Sp|]. rewrite Hx. apply in_or_app. left. exact Hy. }
  destruct (l_rest m) as [u|] eqn:Eu.
  - destruct (l_name m) as [nm|]; [|discriminate].
    match type of E with Ok ?y = _ => assert (n = y) by congruence end. subst n. cbn [l_cmd l_rest].
    split; [apply Hcmd|]. split; [apply Hcmd|]. right. exists u. split; [exact Eu|].
    pose proof (suffix_trans _ _ _ Hr Sp) as Su.
    split; [eapply suffix_in; [exact Su|left; reflexivity]|].
    split; [apply suffix_len in Su; cbn [length] in Su; lia|].
    intros y Hy. eapply suffix_in; [exact Su|right; exact Hy].
  - cbn [with_rest l_name] in E. destruct (l_name m) as [nm|]; [|discriminate].
    match type of E with Ok ?y = _ => assert (n = y) by congruence end. subst n. cbn [l_cmd l_rest].
    split; [apply Hcmd|]. split; [apply Hcmd|]. left. reflexivity.
Qed.
Definition rmap {A B} (f : A -> B) (r : res A) : res B := x <- r ;; Ok (f x).
Lemma shift_with_rest l r : ~ In 59 (l_cmd l) ->
  shift (with_rest r l) = rmap (with_rest r) (shift l).
Proof.
  intros H. unfold shift. cbn [with_rest l_cmd]. pose proof (suffix_skip (l_cmd l)) as S1.
  destruct (skip_delims (l_cmd l)) as [|c t]; [reflexivity|].
  set (p := skip_delims (skipn (strcspn (c :: t) stops) (c :: t))).
  assert (Sp : suffix p (l_cmd l)).
  { eapply suffix_trans; [apply suffix_skip|]. eapply suffix_trans; [apply suffix_skipn|exact S1]. }
  rewrite (split_r p (l_rest l)). rewrite with_rest_rest. rewrite (split_r p r).
  destruct (split p None) as [m| |] eqn:Em; cbn [rbind]; try reflexivity.
  destruct (split_parts _ _ Em) as [_ Hr]. destruct (l_rest m) as [u|] eqn:Eu.
  - exfalso. apply H. eapply suffix_in; [eapply suffix_trans; eassumption|left; reflexivity].
  - cbn [with_rest l_name]. destruct (l_name m); reflexivity.
Qed.

(** ** Commands *)
Lemma cmd_ind2 (Q : cmd -> Prop) :
  (forall id n r, Q (Leaf id n r)) ->
  (forall id n r subs, Forall Q subs -> Q (Super id n r subs)) -> forall c, Q c.
Proof.
  intros H1 H2. fix IH 1. intros [id n r|id n r subs]; [apply H1|]. apply H2.
  induction subs as [|c subs IHs]; constructor; [apply IH|exact IHs].
Qed.
Definition work_nth (subs : list cmd) (i : nat) (l : cline) : res (list event * cline) :=
  match nth_error subs i with Some c => work c l | None => Ok ([], l) end.
Lemma work_super id nm r subs l :
  work (Super id nm r subs) l =
  (n <- shift l ;;
   if negb (have_real_name n)
   then match get_exact no_parameters subs with
        | Some i => work_nth subs i n
        | None => Ok ([EList id], n)
        end
   else match get_cmd (l_name n) subs with
        | Some i => work_nth subs i n
        | None => Ok ([EUndef id (l_name n)], n)
        end).
Proof.
  cbn [work]. set (f := fix run_nth (cs : list cmd) (i : nat) (l : cline) {struct cs} : res (list event * cline) :=
        match cs with
        | [] => Ok ([], l)
        | c :: t => match i with O => work c l | S j => run_nth t j l end
        end).
  assert (F : forall cs i l, f cs i l = work_nth cs i l).
  { induction cs as [|c cs IH]; intros [|i] l0; try reflexivity. cbn [f]. rewrite IH. reflexivity. }
  destruct (shift l) as [n| |]; cbn [rbind]; try reflexivity.
  destruct (negb (have_real_name n)).
  - destruct (get_exact no_parameters subs); [apply F|reflexivity].
  - destruct (get_cmd (l_name n) subs); [apply F|reflexivity].
Qed.
Lemma have_real_name_rest r l : have_real_name (with_rest r l) = have_real_name l.
Proof. reflexivity. Qed.
(** a command does not look at the rest of the line, if no semicolon is left in its own text *)
Lemma work_with_rest c : forall l r, ~ In 59 (l_cmd l) ->
  work c (with_rest r l) = rmap (fun x => (fst x, with_rest r (snd x))) (work c l).
Proof.
  induction c as [id nm rp|id nm rp subs IH] using cmd_ind2; intros l r H.
  - reflexivity.
  - rewrite !work_super. rewrite shift_with_rest by exact H.
    destruct (shift l) as [n| |] eqn:En; cbn [rmap rbind]; try reflexivity.
    destruct (shift_parts _ _ En) as [_ [Hin _]].
    assert (Hn : ~ In 59 (l_cmd n)) by (intros Hc; apply H, Hin, Hc).
    assert (W : forall i, work_nth subs i (with_rest r n) =
                rmap (fun x => (fst x, with_rest r (snd x))) (work_nth subs i n)).
    { intros i. unfold work_nth. destruct (nth_error subs i) as [c|] eqn:Ec; [|reflexivity].
      rewrite Forall_forall in IH. apply (IH c (nth_error_In _ _ Ec)). exact Hn. }
    rewrite have_real_name_rest. destruct (negb (have_real_name n)).
    + destruct (get_exact no_parameters subs); [apply W|reflexivity].
    + cbn [with_rest l_name]. destruct (get_cmd (l_name n) subs); [apply W|reflexivity].
Qed.
(** the rest after a command is the old one or shorter than the command *)
Lemma work_rest c : forall l e l', work c l = Ok (e, l') ->
  (length (l_cmd l') <= length (l_cmd l))%nat /\ (forall x, In x (l_cmd l') -> In x (l_cmd l)) /\
  (l_rest l' = l_rest l \/
   exists u, l_rest l' = Some u /\ In 59 (l_cmd l) /\ (length u < length (l_cmd l))%nat /\
             (forall x, In x u -> In x (l_cmd l))).
Proof.
  induction c as [id nm rp|id nm rp subs IH] using cmd_ind2; intros l e l' E.
  - cbn [work] in E. assert (l' = l) by congruence. subst. auto.
  - rewrite work_super in E. destruct (shift l) as [n| |] eqn:En; cbn [rbind] in E; try discriminate.
    destruct (shift_parts _ _ En) as [H1 [H2 H3]].
    assert (W : forall i, work_nth subs i n = Ok (e, l') ->
      (length (l_cmd l') <= length (l_cmd n))%nat /\ (forall x, In x (l_cmd l') -> In x (l_cmd n)) /\
      (l_rest l' = l_rest n \/
       exists u, l_rest l' = Some u /\ In 59 (l_cmd n) /\ (length u < length (l_cmd n))%nat /\
                 (forall x, In x u -> In x (l_cmd n)))).
    { intros i. unfold work_nth. destruct (nth_error subs i) as [c|] eqn:Ec.
      - rewrite Forall_forall in IH. apply (IH c (nth_error_In _ _ Ec)).
      - intros E1. assert (l' = n) by congruence. subst. auto. }
    assert (G : (length (l_cmd l') <= length (l_cmd n))%nat /\ (forall x, In x (l_cmd l') -> In x (l_cmd n)) /\
      (l_rest l' = l_rest n \/
       exists u, l_rest l' = Some u /\ In 59 (l_cmd n) /\ (length u < length (l_cmd n))%nat /\
                 (forall x, In x u -> In x (l_cmd n)))).
    { destruct (negb (have_real_name n)).
      - destruct (get_exact no_parameters subs) as [i|]; [apply (W i E)|].
        assert (l' = n) by congruence. subst. auto.
      - destruct (get_cmd (l_name n) subs) as [i|]; [apply (W i E)|].
        assert (l' = n) by congruence. subst. auto. }
    destruct G as [G1 [G2 G3]]. split; [lia|]. split; [auto|].
    destruct G3 as [G3|[u [U1 [U2 [U3 U4]]]]].
    + rewrite G3. destruct H3 as [H3|[u [U1 [U2 [U3 U4]]]]]; [left; exact H3|].
      right. exists u. repeat split; auto.
    + right. exists u. split; [exact U1|]. split; [auto|]. split; [lia|auto].
Qed.
Lemma step_with_rest set l r : ~ In 59 (l_cmd l) ->
  step_cmd set (with_rest r l) = rmap (fun x => (fst x, with_rest r (snd x))) (step_cmd set l).
Proof.
  intros H. unfold step_cmd. cbn [with_rest l_name].
  destruct (get_cmd (l_name l) set) as [i|]; [|reflexivity].
  destruct (nth_error set i); [|reflexivity]. apply work_with_rest. exact H.
Qed.
Lemma step_rest set l e l' : step_cmd set l = Ok (e, l') ->
  l_rest l' = l_rest l \/
  exists u, l_rest l' = Some u /\ In 59 (l_cmd l) /\ (length u < length (l_cmd l))%nat /\
            (forall x, In x u -> In x (l_cmd l)).
Proof.
  unfold step_cmd. destruct (get_cmd (l_name l) set) as [i|].
  - destruct (nth_error set i) as [c|].
    + intros E. apply (work_rest c l e l' E).
    + intros E. left. congruence.
  - intros E. left. congruence.
Qed.
(** what is left to do is shorter than the line *)
Lemma rest_shorter set line l e l' : parse line = Ok l -> step_cmd set l = Ok (e, l') ->
  (rest_of l' = [] \/ (length (rest_of l') < length line)%nat) /\
  (forall x, In x (rest_of l') -> In x line).
Proof.
  intros E1 E2. destruct (split_parts _ _ E1) as [[x Hx] Hr].
  assert (Hlen : (length (l_cmd l) <= length line)%nat) by (rewrite Hx, app_length; lia).
  unfold rest_of. destruct (step_rest _ _ _ _ E2) as [E3|[u [U1 [U2 [U3 U4]]]]].
  - rewrite E3. destruct (l_rest l) as [u|].
    + split; [right; apply suffix_len in Hr; cbn [length] in Hr; lia|].
      intros y Hy. eapply suffix_in; [exact Hr|right; exact Hy].
    + split; [left; reflexivity|intros y []].
  - rewrite U1. split; [right; lia|]. intros y Hy. rewrite Hx. apply in_or_app. left. auto.
Qed.
Lemma exec_fuel : forall k k' set line, (length line < k)%nat -> (length line < k')%nat ->
  exec_loop k set line = exec_loop k' set line.
Proof.
  induction k as [|k IH]; intros k' set line H H'; [lia|]. destruct k' as [|k']; [lia|].
  cbn [exec_loop]. destruct (parse line) as [l| |] eqn:E1; cbn [rbind]; try reflexivity.
  destruct (step_cmd set l) as [[e l']| |] eqn:E2; cbn [rbind fst snd]; try reflexivity.
  destruct (rest_shorter _ _ _ _ _ E1 E2) as [D _].
  destruct (rest_of l') as [|x t]; [reflexivity|]. destruct D as [D|D]; [discriminate|].
  rewrite (IH k'); [reflexivity|lia|lia].
Qed.
Lemma exec_unfold set line : exec set line =
  (l <- parse line ;;
   r <- step_cmd set l ;;
   match rest_of (snd r) with
   | [] => Ok (fst r)
   | t => e <- exec set t ;; Ok (fst r ++ e)
   end).
Proof.
  unfold exec at 1. cbn [exec_loop]. destruct (parse line) as [l| |] eqn:E1; cbn [rbind]; try reflexivity.
  destruct (step_cmd set l) as [[e l']| |] eqn:E2; cbn [rbind fst snd]; try reflexivity.
  destruct (rest_shorter _ _ _ _ _ E1 E2) as [D _].
  destruct (rest_of l') as [|x t]; [reflexivity|]. destruct D as [D|D]; [discriminate|].
  unfold exec. rewrite (exec_fuel (length line) (S (length (x :: t)))); [reflexivity|lia|lia].
Qed.

(** ** Written commands *)
Lemma sep_in s x : sep s -> In x s -> delim x.
Proof. intros H. unfold sep in H. rewrite Forall_forall in H. auto. Qed.
Lemma body_quiet l : ok_body l ->
  Forall (fun p => match fst p with IStr t => ~ In 59 t /\ ~ In 35 t | _ => True end) l ->
  ~ In 59 (body l) /\ ~ In 35 (body l).
Proof.
  induction l as [|[i s] l IH]; intros H Q; [cbn; tauto|].
  destruct H as [Hi [Hs [Hl _]]]. inversion Q as [|? ? Q1 Q2]; subst. cbn [fst] in Q1.
  specialize (IH Hl Q2). cbn [body].
  assert (G : forall z, z = 59 \/ z = 35 -> ~ In z (body l) -> ~ In z (source i ++ s ++ body l)).
  { intros z Hz Hb Hc. apply in_app_or in Hc. destruct Hc as [Hc|Hc].
    - destruct i as [w|t]; cbn [source] in Hc.
      + destruct Hi as [_ [Hw _]]. rewrite Forall_forall in Hw. apply Hw in Hc. unfold wchar in Hc. lia.
      + destruct Hc as [Hc|Hc]; [lia|]. apply in_app_or in Hc. destruct Hc as [Hc|[Hc|[]]]; [|lia].
        destruct Hz as [-> | ->]; tauto.
    - apply in_app_or in Hc. destruct Hc as [Hc|Hc]; [|tauto]. apply (sep_in _ _ Hs) in Hc. unfold delim in Hc. lia. }
  split; apply G; tauto.
Qed.
Lemma written_quiet c : ok_command c -> quiet c -> ~ In 59 (written c) /\ ~ In 35 (written c).
Proof.
  intros [H1 [[_ [H2 _]] [H3 [H4 _]]]] Q. destruct (body_quiet _ H4 Q) as [B1 B2].
  assert (G : forall z, z = 59 \/ z = 35 -> ~ In z (body (c_items c)) -> ~ In z (written c)).
  { intros z Hz Hb Hc. unfold written in Hc. apply in_app_or in Hc. destruct Hc as [Hc|Hc].
    { apply (sep_in _ _ H1) in Hc. unfold delim in Hc. lia. }
    apply in_app_or in Hc. destruct Hc as [Hc|Hc].
    { rewrite Forall_forall in H2. apply H2 in Hc. unfold wchar in Hc. lia. }
    apply in_app_or in Hc. destruct Hc as [Hc|Hc]; [|tauto].
    apply (sep_in _ _ H3) in Hc. unfold delim in Hc. lia. }
  split; apply G; tauto.
Qed.
Lemma parse_written c e : ok_command c ->
  parse (written c ++ tail e) = Ok (line_of c (match e with More t => Some t | _ => None end)).
Proof. intros H. apply split_written. exact H. Qed.
Lemma parse_plain c : ok_command c -> parse (written c) = Ok (line_of c None).
Proof. intros H. pose proof (parse_written c End H) as E. cbn [tail] in E. rewrite app_nil_r in E. exact E. Qed.
Lemma line_of_rest c r r' : with_rest r (line_of c r') = line_of c r.
Proof. reflexivity. Qed.

(** the command that is found is a simple one *)
Lemma step_simple set c r : simple_cmd set (c_word c) ->
  exists e, step_cmd set (line_of c r) = Ok (e, line_of c r) /\
            step_cmd set (line_of c None) = Ok (e, line_of c None).
Proof.
  intros H. unfold step_cmd. cbn [line_of l_name].
  destruct (get_cmd (Some (c_word c)) set) as [i|] eqn:Ei; [|eexists; split; reflexivity].
  destruct (nth_error set i) as [m|] eqn:Em; [|eexists; split; reflexivity].
  specialize (H i m Ei Em). destruct m; [|destruct H]. eexists. split; reflexivity.
Qed.
Lemma exec_more set c t : ok_command c -> quiet c \/ simple_cmd set (c_word c) ->
  exec set (written c ++ 59 :: t) =
  (e <- exec set (written c) ;;
   match t with [] => Ok e | _ => e' <- exec set t ;; Ok (e ++ e') end).
Proof.
  intros Hc D. rewrite (exec_unfold set (written c ++ 59 :: t)), (exec_unfold set (written c)).
  change (written c ++ 59 :: t) with (written c ++ tail (More t)).
  rewrite parse_written by exact Hc. rewrite parse_plain by exact Hc. cbn [rbind].
  destruct D as [Q|Sm].
  - destruct (written_quiet c Hc Q) as [N _].
    rewrite <- (line_of_rest c (Some t) None). rewrite step_with_rest by exact N.
    destruct (step_cmd set (line_of c None)) as [[e l']| |] eqn:E; cbn [rmap rbind fst snd]; try reflexivity.
    destruct (step_rest _ _ _ _ E) as [E1|[u [_ [U2 _]]]]; [|exfalso; apply N; exact U2].
    unfold rest_of. rewrite E1. cbn [with_rest l_rest line_of rbind].
    destruct t; reflexivity.
  - destruct (step_simple set c (Some t) Sm) as [e [E1 E2]]. rewrite E1, E2. cbn [rbind fst snd].
    unfold rest_of. cbn [line_of l_rest rbind]. destruct t; reflexivity.
Qed.
Lemma exec_comment set c t : ok_command c ->
  exec set (written c ++ 35 :: t) = exec set (written c).
Proof.
  intros Hc. rewrite (exec_unfold set (written c ++ 35 :: t)), (exec_unfold set (written c)).
  change (written c ++ 35 :: t) with (written c ++ tail (Comment t)).
  rewrite parse_written by exact Hc. rewrite parse_plain by exact Hc. reflexivity.
Qed.
